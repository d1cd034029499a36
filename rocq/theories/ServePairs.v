(** Engines that differ by an option or by the spelling of routes; reachable routes. *)
From Coq Require Import Sorted.
From Verif Require Import Base GoStr Strconv Pattern Tree GoStrFacts TreeSpec ListFacts TreeFacts TreeMatch TreeTop
  TreeOrder RoutingFacts Header PatternSpec PatternFacts Router RouterSpec RouterFacts RouterDump MethodFacts HandlerFacts RouterProps Variant Ctx
  CtxFacts TraceSpec Engine ServeFacts ServeProps EngineSpec ServeTop ServeDispatch Sim ServeMore.
Local Open Scope Z_scope.

Section Pairs.
Context {A V : Type}.
Variable re_ok : gostr -> bool.
Variable re_find : gostr -> gostr -> option (list gostr).
Variable sniff : gostr -> gostr.
Variable parse_form : bool -> request -> gostr * bool -> gmap gostr (list gostr) * bool * gostr.
Variable code : handler A -> prog V.
Implicit Types e : engine A.

Local Notation find_node := (find_node re_find).
Local Notation reply := (reply re_find sniff parse_form code).
Local Notation runc := (runc sniff parse_form code).
Local Notation fits := (fits (A:=A) re_ok re_find).
Local Notation same_pattern := (same_pattern (A:=A) re_ok).
Local Notation verbatim := (verbatim re_ok).
Local Notation literal := (literal (A:=A) re_ok).

(** ** The same registration with and without the static router *)
Definition twin (m1 m2 : mrouter A) : Prop :=
  m_tree m1 = m_tree m2 /\ m_match m1 = m_match m2 /\ m_count m1 = m_count m2.
Lemma buildTree_twin s1 s2 (l : list (route A)) : forall ms1 ms2 ms1' ms2', Forall2 twin ms1 ms2 ->
  buildTree re_ok s1 ms1 l = Ok ms1' -> buildTree re_ok s2 ms2 l = Ok ms2' -> Forall2 twin ms1' ms2'.
Proof.
  induction l as [|v l IH]; intros ms1 ms2 ms1' ms2' Ht H1 H2; cbn [buildTree] in H1, H2; [by simplify_eq|].
  destruct (MethodIndex (rt_method v)) as [i|]; [|done].
  destruct (ms1 !! i) as [m1|] eqn:Hm; [|done]. destruct (Forall2_lookup_l _ _ _ _ _ Ht Hm) as (m2 & Hm' & (T1 & T2 & T3)).
  rewrite Hm' in H2. apply rbind_ok in H1 as (a & Ha & H1). apply rbind_ok in H2 as (b & Hb & H2).
  eapply IH; [|exact H1|exact H2]. apply Forall2_insert; [done|].
  unfold add_route in Ha, Hb. rewrite <- T1, <- T3 in Hb.
  destruct (add re_ok _ _ _ _) as [[[t n] k]| |]; cbn [rbind] in Ha, Hb; [|done|done].
  injection Ha as <-. injection Hb as <-. split_and!; simpl; congruence.
Qed.
Lemma twin_engines ops r0 opts e1 e2 :
  engine_of re_ok ops r0 (opts ++ [WithStaticRouter false]) e1 ->
  engine_of re_ok ops r0 (opts ++ [WithStaticRouter true]) e2 ->
  routes e1 = routes e2 /\ Forall2 twin (en_routers e1) (en_routers e2) /\
  o_nofound (en_options e1) = o_nofound (en_options e2) /\
  o_static (en_options e1) = false /\ o_static (en_options e2) = true.
Proof.
  intros He1 He2. pose proof (engine_built _ _ _ _ _ He1) as [_ B1]. pose proof (engine_built _ _ _ _ _ He2) as [_ B2].
  destruct He1 as (hp & mem1 & mem1' & Hr1 & H1), He2 as (hp' & mem2 & mem2' & Hr2 & H2).
  rewrite Hr1 in Hr2. injection Hr2 as <-.
  assert (Hro : routes e1 = routes e2).
  { destruct (bu_store _ _ _ _ _ B1) as (l1 & L1 & F1), (bu_store _ _ _ _ _ B2) as (l2 & L2 & F2).
    rewrite (leaves_unique _ _ _ _ L2 L1) in F2. unfold routes. clear -F1 F2. revert F2.
    generalize (rs_slice (en_store e2)). induction F1 as [|a b l k Hab Hl IH]; intros z Hz; inversion Hz; subst; [done|].
    f_equal; [by eapply route_of_fun|auto]. }
  assert (Hop : forall b e, opts_give (befores (history ops) r0) (opts ++ [WithStaticRouter b]) (en_options e) ->
     o_static (en_options e) = b /\ exists o, opts_give (befores (history ops) r0) opts o /\ o_nofound (en_options e) = o_nofound o).
  { intros b e Hg. remember (opts ++ [WithStaticRouter b]) as os eqn:Hos. remember (en_options e) as o' eqn:Ho'. clear Ho'.
    destruct Hg as [|fs o b' Hg'|fs o vs hs gs Hg'|fs o m Hg'].
    - by destruct opts.
    - apply app_inj_tail in Hos as [-> [= ->]]. simpl. eauto.
    - by apply app_inj_tail in Hos as [_ ?].
    - by apply app_inj_tail in Hos as [_ ?]. }
  destruct (Hop _ _ (bu_opts _ _ _ _ _ B1)) as (S1 & o1 & O1 & N1).
  destruct (Hop _ _ (bu_opts _ _ _ _ _ B2)) as (S2 & o2 & O2 & N2).
  split_and!; [done| |by rewrite N1, N2, (opts_give_fun _ _ _ _ O1 O2)|done|done].
  rewrite Handler_collect in H1, H2. destruct (collect hp r0 (opts ++ [WithStaticRouter false])) as [[oa rsa]| |]; [|done|done].
  destruct (collect hp r0 (opts ++ [WithStaticRouter true])) as [[ob rsb]| |]; [|done|done].
  apply (f_equal fst) in H1, H2. cbn [fst] in H1, H2.
  apply rbind_ok in H1 as (ms1 & Hb1 & E1). apply rbind_ok in H2 as (ms2 & Hb2 & E2).
  injection E1 as <-. injection E2 as <-. unfold routes in Hro. simpl in *. rewrite Hro in Hb1.
  eapply buildTree_twin; [|exact Hb1|exact Hb2]. apply Forall2_same_length_lookup_2; [done|]. intros i a b Ha Hb.
  rewrite Ha in Hb. by injection Hb as <-.
Qed.

Lemma twin_find ops r0 opts e1 e2 i r old old' :
  engine_of re_ok ops r0 (opts ++ [WithStaticRouter false]) e1 ->
  engine_of re_ok ops r0 (opts ++ [WithStaticRouter true]) e2 ->
  MethodIndex (rq_method r) = Some i ->
  find_node e1 i (rq_path r) old = find_node e2 i (rq_path r) old' \/
  exists u, u ∈ routes e2 /\ verbatim e2 u r /\
    (uri_segs (rt_variant u) = path_segs (rq_path r) ->
     exists v n1 n2 w ps, v ∈ routes e2 /\ find_node e1 i (rq_path r) old = (Some (n1, w), ps) /\
       find_node e2 i (rq_path r) old' = (Some (n2, w), old') /\
       e_handlers n1 = rt_handlers v /\ e_handlers n2 = rt_handlers v).
Proof.
  intros He1 He2 Hi. destruct (twin_engines _ _ _ _ _ He1 He2) as (Hro & Ht & _ & S1 & S2).
  destruct (mrouter_of _ _ _ _ _ _ _ He1 Hi) as (m1 & tbl1 & Hm1 & Hinv1).
  destruct (mrouter_of _ _ _ _ _ _ _ He2 Hi) as (m2 & tbl2 & Hm2 & Hinv2).
  pose proof (Forall2_lookup_lr _ _ _ _ _ _ Ht Hm1 Hm2) as (T1 & T2 & _).
  assert (Hmr : mroutes e1 i = mroutes e2 i) by (unfold mroutes; by rewrite Hro).
  rewrite Hmr in Hinv1.
  assert (tbl1 = tbl2) as <-.
  { pose proof (mi_routes _ _ _ _ _ Hinv1) as F1. pose proof (mi_routes _ _ _ _ _ Hinv2) as F2.
    unfold routes_of in *. clear - F1 F2. revert tbl2 F2. induction F1 as [|a b l k Hab Hl IH]; intros z Hz; inversion Hz; subst; [done|].
    f_equal; [by eapply uri_route_fun|auto]. }
  assert (Hf1 : find_node e1 i (rq_path r) old =
    let '(n, ps) := Match re_find (m_tree m1) (rq_path r) in ((fun n => (n, m_match m1 !! e_id n)) <$> n, ps)).
  { unfold Engine.find_node. by rewrite Hm1, S1. }
  pose proof (find_found re_ok re_find e2 i m2 tbl1 Hm2 Hinv2 (rq_path r) old') as Hf2.
  destruct (m_static m2 !! rq_path r) as [n|] eqn:Hn.
  2: { left. rewrite Hf1. unfold Engine.find_node. by rewrite Hm2, S2, Hn, <- T1, <- T2. }
  right. assert (E2 : find_node e2 i (rq_path r) old' = (Some (n, m_match m2 !! e_id n), old')).
  { unfold Engine.find_node. by rewrite Hm2, S2, Hn. }
  rewrite E2 in Hf2.
  inversion Hf2 as [n' u k w v p j Hst Hs Hu Hpath Hp Hall Hfirst Hv Hh Hlast Hw HH1|
                  T n' ps w v p j HT HA Hno HM Hfirst Hv Hh Hacc Hlast Hw HH1|]; subst n'.
  2: { rewrite (Hno S2) in Hn. done. }
  assert (Hul : u ∈ mroutes e2 i) by (by eapply elem_of_list_lookup_2). apply mroutes_in in Hul as [Hur Hum].
  exists u. split; [done|]. split.
  { split_and!; [done|by eapply MethodIndex_inj|done|]. exists p. split; [|done].
    eapply (tbl_route re_ok e2 i m2 tbl1 Hinv2); [exact Hu|exact Hp]. }
  intros Hsg. pose proof (mi_tree _ _ _ _ _ Hinv1) as HT1. rewrite Hf1.
  destruct (m_tree m1) as [T|] eqn:HmT.
  2: { rewrite HT1 in Hu. done. }
  destruct (Match re_find (Some T) (rq_path r)) as [n1 ps1] eqn:HM.
  destruct (match_literal re_ok re_find sniff (added (mroutes e2 i)) T tbl1 (rq_path r) (rt_variant u, rt_handlers u) k p n1 ps1)
    as (n1' & -> & Hf1'); try done.
  { apply (mi_routes _ _ _ _ _ Hinv1). }
  { unfold added. rewrite list_lookup_fmap, Hu. done. }
  pose proof (first_at_fun _ _ _ _ Hf1' Hfirst) as Hid.
  exists v, n1', n, (m_match m2 !! e_id n), ps1. split_and!.
  - apply elem_of_list_lookup_2 in Hv. by apply mroutes_in in Hv as [? _].
  - simpl. by rewrite T2, Hid.
  - done.
  - destruct (dispatch_sound _ re_ok re_find _ T (rq_path r) HT1 n1' ps1 HM) as (u' & q' & Hu' & _ & _).
    unfold added in Hu'. rewrite list_lookup_fmap, Hid, Hv in Hu'. injection Hu' as _ Hu'. congruence.
  - done.
Qed.

Lemma static_router_same ops r0 opts e1 e2 id x x' r body :
  engine_of re_ok ops r0 (opts ++ [WithStaticRouter false]) e1 ->
  engine_of re_ok ops r0 (opts ++ [WithStaticRouter true]) e2 ->
  (forall u, u ∈ routes e2 -> verbatim e2 u r ->
     uri_segs (rt_variant u) = path_segs (rq_path r) /\
     forall v h, v ∈ routes e2 -> h ∈ rt_handlers v -> only param_free (code h)) ->
  reply e1 id x r body = reply e2 id x' r body.
Proof.
  intros He1 He2 Hv. rewrite !reply_eq. destruct (refusal r) as [n|i] eqn:Hr; [done|]. apply refusal_none in Hr as [_ Hi].
  destruct (twin_engines _ _ _ _ _ He1 He2) as (Hro & _ & Hnf & _). rewrite Hnf.
  destruct (twin_find _ _ _ _ _ i r (x_params x) (x_params x') He1 He2 Hi) as [->|(u & Hu & Hvb & Hs)]; [done|].
  destruct (Hv u Hu Hvb) as [Hsg Hfree]. destruct (Hs Hsg) as (v & n1 & n2 & w & ps & Hin & -> & -> & -> & ->).
  apply (runc_sim sniff parse_form code false true); [done|done|]. intros h Hh. apply only_param_free. by eapply Hfree.
Qed.

(** ** Patterns in gin notation *)
Lemma gin_reply ops ops' r0 opts e e' id x r body :
  engine_of re_ok ops r0 opts e -> engine_of re_ok ops' r0 opts e' ->
  Forall2 ev_gin (history ops) (history ops') ->
  (forall v h, v ∈ routes e -> h ∈ rt_handlers v -> only path_free (code h)) ->
  reply e id x r body = reply e' id x r body.
Proof.
  intros He He' Hg Hfree.
  assert (Hrt : Forall2 mrouter_gin (en_routers e) (en_routers e') /\ en_options e = en_options e').
  { destruct He as (hp & m & m1 & Hr & Hh), He' as (hp' & m' & m1' & Hr' & Hh').
    assert (exists m2', Handler re_ok hp' r0 opts m = (Ok e', m2')) as [m2' Hh2].
    { rewrite Handler_collect in Hh' |- *. destruct (collect hp' r0 opts) as [[o rs]| |]; [|done|done].
      injection Hh' as Hh' _. rewrite Hh'. eauto. }
    destruct (gin_engines re_ok ops ops' hp hp' r0 opts m e e' m1 m2' Hr Hr' Hg Hh Hh2) as (_ & ? & ?). done. }
  destruct Hrt as [Hrt Ho]. rewrite !reply_eq. destruct (refusal r) as [n|i] eqn:Hr; [done|].
  apply refusal_none in Hr as [_ Hi]. rewrite <- Ho.
  destruct (mrouter_of _ _ _ _ _ _ _ He Hi) as (m & tbl & Hm & Hinv).
  pose proof (find_found re_ok re_find e i m tbl Hm Hinv (rq_path r) (x_params x)) as Hf.
  destruct (Forall2_lookup_l _ _ _ _ _ Hrt Hm) as (m' & Hm' & (T & S & _ & _)).
  assert (Hsame : match find_node e i (rq_path r) (x_params x), find_node e' i (rq_path r) (x_params x) with
    | (Some (n1, _), ps1), (Some (n2, _), ps2) => n1 = n2 /\ ps1 = ps2
    | (None, ps1), (None, ps2) => ps1 = ps2
    | _, _ => False end).
  { unfold Engine.find_node. rewrite Hm, Hm', <- Ho, <- S, <- T.
    destruct (if o_static (en_options e) then _ else _); [done|]. by destruct (Match _ _ _) as [[n|] ps]. }
  destruct Hf as [n u k w v p j ? ? ? ? ? ? ? Hv Hh|T' n ps w v p j ? ? ? ? ? Hv Hh|];
    destruct (find_node e' i (rq_path r) (x_params x)) as [[[n2 w2]|] ps2]; try done.
  - destruct Hsame as [<- <-]. rewrite Hh. apply (runc_sim sniff parse_form code true false); [done|done|].
    intros h Hin. apply only_path_free. eapply Hfree; [|exact Hin].
    apply elem_of_list_lookup_2 in Hv. by apply mroutes_in in Hv as [? _].
  - destruct Hsame as [<- <-]. rewrite Hh. apply (runc_sim sniff parse_form code true false); [done|done|].
    intros h Hin. apply only_path_free. eapply Hfree; [|exact Hin].
    apply elem_of_list_lookup_2 in Hv. by apply mroutes_in in Hv as [? _].
  - by rewrite Hsame.
Qed.

(** ** Routes that are reached *)
Lemma sole_reached ops r0 opts e v id x r body :
  engine_of re_ok ops r0 opts e -> v ∈ routes e -> (forall n, ~ refused r n) -> fits v r ->
  (forall w, w ∈ routes e -> fits w r \/ verbatim e w r -> w = v) ->
  exists n ps, reply e id x r body = runc id (rt_handlers v) ps (Some (n, Some v)) r body.
Proof.
  intros He Hv Hnr Hfit Hsole. unfold ServeMore.reply.
  destruct (ServeHTTP re_find sniff parse_form code e id x (arrive r body)) as [[en px] c'] eqn:H.
  destruct (serve_handled re_ok re_find sniff parse_form code _ _ _ _ _ _ _ _ _ _ _ He H) as
    [n Hn|_ Hno|? _ Hno|v' w n ps _ Hv' Hw Hsame _ _ Hwhy Hh Hran].
  - by destruct (Hnr n).
  - by destruct (Hno v Hv).
  - by destruct (Hno v Hv).
  - assert (Hfits : forall a, same_pattern v' a -> fits v' r -> fits a r).
    { intros a [Hm (p & P1 & P2)] [Fm (q & Q & Qa)]. split; [congruence|]. exists q. split; [|done].
      by rewrite (uri_route_fun _ _ _ _ Q P1). }
    assert (Hvw : v' = v /\ w = v).
    { destruct Hwhy as [Hf|(u & Hu & Hvb & Hs)].
      - split; apply Hsole; auto.
      - assert (u = v) as -> by (apply Hsole; auto). destruct Hs as [Hm (p & P1 & P2)].
        assert (fits v' r) as Hf.
        { destruct Hfit as [Fm (q & Q & Qa)]. split; [congruence|]. exists q. split; [|done].
          by rewrite (uri_route_fun _ _ _ _ Q P1). }
        split; apply Hsole; auto. }
    destruct Hvw as [-> ->]. exists n, ps. symmetry. by apply runc_ran.
Qed.

Lemma literal_reached ops r0 opts e v id x r body :
  engine_of re_ok ops r0 opts e -> v ∈ routes e -> (forall n, ~ refused r n) -> literal v ->
  rt_method v = rq_method r -> path_segs (rq_path r) = uri_segs (rt_variant v) ->
  (forall w, w ∈ routes e -> same_pattern v w -> w = v) ->
  (forall w, w ∈ routes e -> verbatim e w r -> w = v) ->
  exists n ps, reply e id x r body = runc id (rt_handlers v) ps (Some (n, Some v)) r body.
Proof.
  intros He Hv Hnr (p & Hp & Hall) Hm Hsegs Huniq Hverb. rewrite reply_eq.
  destruct (refusal r) as [n|i] eqn:Hr; [by apply refusal_refused, Hnr in Hr|]. apply refusal_none in Hr as [_ Hi].
  destruct (mrouter_of _ _ _ _ _ _ _ He Hi) as (m & tbl & Hmi & Hinv).
  assert (Hvi : v ∈ mroutes e i) by (apply mroutes_in; by rewrite Hm).
  apply elem_of_list_lookup in Hvi as [k Hk]. destruct (route_tbl re_ok e i m tbl Hinv _ _ Hk) as (p' & Hp' & Hr).
  rewrite <- (uri_route_fun _ _ _ _ Hp Hr) in Hp'. clear p' Hr.
  assert (Honly : forall j w, tbl !! j = Some p -> mroutes e i !! j = Some w -> w = v).
  { intros j w Hj Hw. apply Huniq; [apply elem_of_list_lookup_2 in Hw; by apply mroutes_in in Hw as [? _]|].
    eapply (mroutes_same re_ok e i m tbl Hinv); [exact Hk|exact Hw|exact Hp'|exact Hj]. }
  pose proof (find_found re_ok re_find e i m tbl Hmi Hinv (rq_path r) (x_params x)) as Hf.
  destruct Hf as [n u k' w v' q j Hst Hs Hu Hpath Hq Hallq Hfirst Hv' Hh Hlast Hw
                 |T n ps w v' q j HT HA Hno HM Hfirst Hv' Hh Hacc Hlast Hw|ps Hno HM Hnone].
  - assert (u = v) as ->.
    { apply Hverb; [apply elem_of_list_lookup_2 in Hu; by apply mroutes_in in Hu as [? _]|].
      pose proof (elem_of_list_lookup_2 _ _ _ Hu) as Hu2. apply mroutes_in in Hu2 as [_ Hu2].
      split_and!; [done|by eapply MethodIndex_inj|done|]. exists q. split; [|done]. by eapply (tbl_route re_ok e i m tbl Hinv). }
    assert (q = p) as ->.
    { pose proof (tbl_route re_ok e i m tbl Hinv _ _ _ Hu Hq) as Hq'. by eapply uri_route_fun. }
    rewrite (Honly _ _ (proj1 Hfirst) Hv') in Hh. rewrite (Honly _ _ (proj1 Hlast) Hw), Hh. eauto.
  - destruct (match_literal re_ok re_find sniff (added (mroutes e i)) T tbl (rq_path r) (rt_variant v, rt_handlers v) k p (Some n) ps)
      as (n' & [= <-] & Hf1); try done.
    { apply (mi_routes _ _ _ _ _ Hinv). }
    { unfold added. by rewrite list_lookup_fmap, Hk. }
    assert (q = p) as ->.
    { destruct Hf1 as [E1 _], Hfirst as [E2 _]. congruence. }
    rewrite (Honly _ _ (proj1 Hfirst) Hv') in Hh. rewrite (Honly _ _ (proj1 Hlast) Hw), Hh. eauto.
  - exfalso. apply (Hnone v p); [apply mroutes_in; by rewrite Hm|done|].
    eapply static_accepts; [exact Hp|done|done].
Qed.

(** ** Options *)
Lemma nofound_given gb (fs fs2 : list (opt A)) vs o : opts_give gb (fs ++ WithNoFoundHandlers vs :: fs2) o ->
  (forall us, WithNoFoundHandlers us ∉ fs2) ->
  exists gs hs, Forall2 converts gb gs /\ Forall2 converts vs hs /\ vs <> [] /\ o_nofound o = gs ++ hs.
Proof.
  intros Hg Hno. remember (fs ++ WithNoFoundHandlers vs :: fs2) as os eqn:Hos. revert fs2 Hos Hno.
  induction Hg as [|gs o b Hg IH|gs o us hs ks Hg IH Hne Hc Hc'|gs o m Hg IH]; intros fs2 Hos Hno.
  - by destruct fs.
  - destruct fs2 as [|f fs2 _] using rev_ind.
    + by apply app_inj_tail in Hos as [_ ?].
    + rewrite app_comm_cons, app_assoc in Hos. apply app_inj_tail in Hos as [-> _]. apply (IH fs2); [done|].
      intros us Hin. apply (Hno us). apply elem_of_app. by left.
  - destruct fs2 as [|f fs2 _] using rev_ind.
    + apply app_inj_tail in Hos as [_ [= ->]]. exists ks, hs. done.
    + rewrite app_comm_cons, app_assoc in Hos. apply app_inj_tail in Hos as [_ <-]. exfalso. apply (Hno us). set_solver.
  - destruct fs2 as [|f fs2 _] using rev_ind.
    + by apply app_inj_tail in Hos as [_ ?].
    + rewrite app_comm_cons, app_assoc in Hos. apply app_inj_tail in Hos as [-> _]. apply (IH fs2); [done|].
      intros us Hin. apply (Hno us). apply elem_of_app. by left.
Qed.
Lemma nofound_absent gb (fs : list (opt A)) o : opts_give gb fs o -> (forall us, WithNoFoundHandlers us ∉ fs) -> o_nofound o = [].
Proof.
  induction 1 as [|gs o b Hg IH|gs o us hs ks Hg IH Hne Hc Hc'|gs o m Hg IH]; intros Hno; [done|..].
  - apply IH. intros us Hin. apply (Hno us). apply elem_of_app. by left.
  - exfalso. apply (Hno us). set_solver.
  - apply IH. intros us Hin. apply (Hno us). apply elem_of_app. by left.
Qed.

(** ** Logs of requests to any engine *)
Lemma served e id x r body en px c' :
  ServeHTTP re_find sniff parse_form code e id x (arrive r body) = (en, px, c') ->
  (en = EDone /\ exists n, c' = bare r body n) \/
  exists hs ps n, ran sniff parse_form code id hs ps n r body en c'.
Proof.
  intros H. apply serve_split in H as [(n & _ & -> & ->)|(i & _ & _ & H)]; [left; eauto|].
  destruct (find_node e i (rq_path r) (x_params x)) as [[[n rt]|] ps]; [right; eauto|].
  destruct (o_nofound (en_options e)); [left; destruct H as [-> ->]; eauto|right; eauto].
Qed.
Lemma bare_hist (Q : list (event V) -> event V -> Prop) r body n : (forall l m, Q l (EvSend m)) -> hist Q (cn_log (bare r body n)).
Proof. intros HQ l1 ev l2 Heq. simpl in Heq. destruct l1 as [|? [|]]; by simplify_eq/=. Qed.
End Pairs.
