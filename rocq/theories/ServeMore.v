(** The reply to a request as a function; dependence on the recycled context, on
    the static router and on the spelling of routes. *)
From Coq Require Import Sorted.
From Verif Require Import Base GoStr Strconv Pattern Tree GoStrFacts TreeSpec ListFacts TreeFacts TreeMatch TreeTop
  TreeOrder RoutingFacts Header PatternSpec PatternFacts Router RouterSpec RouterFacts RouterDump MethodFacts HandlerFacts RouterProps Variant Ctx
  CtxFacts TraceSpec Engine ServeFacts ServeProps EngineSpec ServeTop ServeDispatch Sim.
Local Open Scope Z_scope.

Section More.
Context {A V : Type}.
Variable re_ok : gostr -> bool.
Variable re_find : gostr -> gostr -> option (list gostr).
Variable sniff : gostr -> gostr.
Variable parse_form : bool -> request -> gostr * bool -> gmap gostr (list gostr) * bool * gostr.
Variable code : handler A -> prog V.
Implicit Types x : ctxobj A V.
Implicit Types e : engine A.

Local Notation ServeHTTP := (ServeHTTP re_find sniff parse_form code).
Local Notation find_node := (find_node re_find).
Local Notation crun := (crun sniff parse_form code).
Local Notation ran := (ran sniff parse_form code).
Local Notation fits := (fits (A:=A) re_ok re_find).
Local Notation same_pattern := (same_pattern (A:=A) re_ok).
Local Notation verbatim := (verbatim re_ok).
Local Notation literal := (literal (A:=A) re_ok).

(** how serving ends and what the connection then holds *)
Definition reply e (id : nat) x (r : request) (body : rbody) : ending * conn V :=
  let '(en, _, c) := ServeHTTP e id x (arrive r body) in (en, c).
Definition runc (id : nat) hs ps n (r : request) (body : rbody) : ending * conn V :=
  let '(en, (_, c)) := crun (length hs) (fresh id hs ps n) (arrive r body) in (en, c).
Lemma runc_ran id hs ps n r body en c' : runc id hs ps n r body = (en, c') <-> ran id hs ps n r body en c'.
Proof.
  unfold runc, ServeTop.ran. destruct (crun _ _ _) as [en1 [x1 c1]]. split.
  - intros [= <- <-]. eauto.
  - intros [x' H]. by inversion H.
Qed.

Lemma reply_eq e id x r body : reply e id x r body =
  match refusal r with
  | inl n => (EDone, bare r body n)
  | inr i =>
      match find_node e i (rq_path r) (x_params x) with
      | (Some (n, rt), ps) => runc id (e_handlers n) ps (Some (n, rt)) r body
      | (None, ps) => match o_nofound (en_options e) with
                      | [] => (EDone, bare r body 404)
                      | hs => runc id hs ps None r body
                      end
      end
  end.
Proof.
  unfold reply. destruct (ServeHTTP e id x (arrive r body)) as [[en px] c'] eqn:H.
  apply serve_split in H as [(n & Hn & -> & ->)|(i & Hu & Hi & H)].
  - apply refusal_refused in Hn. by rewrite Hn.
  - assert (refusal r = inr i) as -> by (by apply refusal_none).
    destruct (find_node _ _ _ _) as [[[n rt]|] ps]; [by apply runc_ran in H|].
    destruct (o_nofound _); [by destruct H as [-> ->]|]. by apply runc_ran in H.
Qed.

(** ** The recycled context *)
Definition param_free (o : op V) : Prop := match o with OParams | OParamPut _ _ => False | _ => True end.
Definition path_free (o : op V) : Prop := match o with OFullPath => False | _ => True end.

Lemma runc_sim (params path : bool) id hs ps ps' n n' r body :
  (params = true -> ps = ps') -> (path = true -> at_uri n = at_uri n') ->
  (forall h, h ∈ hs -> only (allowed params path) (code h)) ->
  runc id hs ps n r body = runc id hs ps' n' r body.
Proof.
  intros Hp Hn Hc. destruct (runc id hs ps n r body) as [en c'] eqn:H. symmetry. apply runc_ran in H as [x' H].
  assert (Hs : sim (A:=A) (V:=V) params path (fresh id hs ps n) (fresh id hs ps' n')) by (by constructor).
  destruct (crun_sim sniff parse_form code params path hs (length hs) Hc _ _ _ _ _ _ Hs eq_refl H) as (y' & Hy & _ & _).
  apply runc_ran. by exists y'.
Qed.
Lemma only_param_free (p : prog V) : only param_free p -> only (allowed false true) p.
Proof. apply only_impl. by intros []. Qed.
Lemma only_path_free (p : prog V) : only path_free p -> only (allowed true false) p.
Proof. apply only_impl. by intros []. Qed.

Section Engine.
Variables (ops : list (rop A)) (r0 : nat) (opts : list (opt A)) (e : engine A).
Hypothesis He : engine_of re_ok ops r0 opts e.

(** no verbatim route: the static map has no entry *)
Lemma no_verbatim i m tbl r : MethodIndex (rq_method r) = Some i ->
  minv re_ok (o_static (en_options e)) (mroutes e i) m tbl ->
  (forall v, v ∈ routes e -> ~ verbatim e v r) ->
  (if o_static (en_options e) then m_static m !! rq_path r else None) = None.
Proof.
  intros Hi Hinv Hno. destruct (o_static (en_options e)) eqn:Hst; [|done].
  destruct (m_static m !! rq_path r) as [n|] eqn:Hn; [|done]. exfalso.
  destruct (mi_static _ _ _ _ _ Hinv _ _ Hn) as (_ & k & u & p & Hu & Hpath & Hp & Hall & _).
  assert (Hin : u ∈ mroutes e i) by (by eapply elem_of_list_lookup_2). apply mroutes_in in Hin as [Hin Hm].
  apply (Hno u Hin). split_and!; [done|by eapply MethodIndex_inj|done|].
  exists p. split; [|done].
  assert (added (mroutes e i) !! k = Some (rt_variant u, rt_handlers u)) as Ha.
  { unfold added. rewrite list_lookup_fmap, Hu. done. }
  apply (Forall2_lookup_lr _ _ _ _ _ _ (mi_routes _ _ _ _ _ Hinv) Ha Hp).
Qed.

Lemma recycled_irrelevant id x x' r body :
  (forall v, v ∈ routes e -> ~ verbatim e v r) -> reply e id x r body = reply e id x' r body.
Proof.
  intros Hno. rewrite !reply_eq. destruct (refusal r) as [n|i] eqn:Hr; [done|]. apply refusal_none in Hr as [_ Hi].
  destruct (mrouter_of _ _ _ _ _ _ _ He Hi) as (m & tbl & Hm & Hinv).
  unfold Engine.find_node. rewrite Hm, (no_verbatim i m tbl r Hi Hinv Hno). done.
Qed.
Lemma recycled_static_off id x x' r body : o_static (en_options e) = false ->
  reply e id x r body = reply e id x' r body.
Proof. intros Hs. apply recycled_irrelevant. intros v _ [? _]. congruence. Qed.
Lemma recycled_param_free id x x' r body :
  (forall v h, v ∈ routes e -> h ∈ rt_handlers v -> only param_free (code h)) ->
  reply e id x r body = reply e id x' r body.
Proof.
  intros Hfree. rewrite !reply_eq. destruct (refusal r) as [n|i] eqn:Hr; [done|]. apply refusal_none in Hr as [_ Hi].
  destruct (mrouter_of _ _ _ _ _ _ _ He Hi) as (m & tbl & Hm & Hinv).
  pose proof (find_found re_ok re_find e i m tbl Hm Hinv (rq_path r) (x_params x)) as Hf.
  unfold Engine.find_node in *. rewrite Hm in *.
  destruct (if o_static (en_options e) then m_static m !! rq_path r else None) as [n|] eqn:Hn; [|done].
  inversion Hf as [n' u k w v p j Hst Hs Hu Hpath Hp Hall Hfirst Hv Hh Hlast Hw HH1|
                  T n' ps w v p j HT HA Hno HM Hfirst Hv Hh Hacc Hlast Hw HH1|]; subst n'.
  - rewrite Hh. apply (runc_sim false true); [done|done|].
    intros h Hin. apply only_param_free. eapply Hfree; [|exact Hin].
    apply elem_of_list_lookup_2 in Hv. by apply mroutes_in in Hv as [? _].
  - destruct (o_static (en_options e)); [|done]. rewrite (Hno eq_refl) in Hn. done.
Qed.

End Engine.

(** ** Routes without variable segments *)
Lemma accepts_at (c : list pat) : forall p t ss, route_accepts re_find (c ++ p :: t) ss -> p_typ p = PStatic ->
  ss !! length c = Some (p_raw p).
Proof.
  induction c as [|q c IH]; intros p t ss Ha Hp; simpl in Ha.
  - inversion Ha as [? s Hs|? s ss' Ht|? ? s ss' Hs]; subst; simpl.
    + unfold seg_accepts in Hs. rewrite Hp in Hs. by rewrite Hs.
    + congruence.
    + unfold seg_accepts in Hs. rewrite Hp in Hs. by rewrite Hs.
  - inversion Ha as [? s Hs Hx|? s ss' Ht Hne Hx|? ? s ss' Hs Hr]; subst; simpl.
    + by destruct c.
    + by destruct c.
    + by eapply IH.
Qed.
Lemma static_pat u (q : list pat) p : uri_route re_ok u q -> p ∈ q -> p_typ p = PStatic -> p = mkPat PStatic (p_raw p) (p_raw p) [] None.
Proof.
  intros Hu Hin Ht. apply elem_of_list_lookup in Hin as [k Hk].
  destruct (Forall2_lookup_r _ _ _ _ _ Hu Hk) as (s & _ & Ha). apply analyze_grammar in Ha.
  destruct Ha; simpl in Ht; try done.
Qed.
Lemma static_wins u1 u2 tbl n p q ss : uri_route re_ok u1 p -> uri_route re_ok u2 q -> all_static p ->
  route_accepts re_find p ss -> route_accepts re_find q ss -> ~ beats tbl n q p.
Proof.
  intros H1 H2 Hall Ha1 Ha2 Hb.
  assert (Hst : forall y, y ∈ p -> p_typ y = PStatic) by (by apply Forall_forall).
  assert (Hkind : forall y z, z ∈ p -> ~ kind_lt y z).
  { intros y z Hz. unfold kind_lt. rewrite (Hst z Hz). simpl. lia. }
  assert (Hsame : forall c0 y t1 z t2, q = c0 ++ y :: t1 -> p = c0 ++ z :: t2 -> p_typ y = p_typ z -> y = z).
  { intros c0 y t1 z t2 -> -> Ht. assert (p_typ z = PStatic) as Hz by (apply Hst; set_solver).
    rewrite (static_pat _ _ y H2), (static_pat _ _ z H1); [|set_solver|done|set_solver|congruence].
    pose proof (accepts_at _ _ _ _ Ha1 Hz) as E1. pose proof (accepts_at _ _ _ _ Ha2 ltac:(congruence)) as E2.
    rewrite E1 in E2. by inversion E2. }
  inversion Hb; subst.
  - eapply Hkind; [|done]. set_solver.
  - match goal with H : p1 <> p2 |- _ => apply H end. by eapply Hsame.
  - eapply Hkind; [|done]. set_solver.
  - match goal with H : p1 <> p2 |- _ => apply H end. by eapply Hsame.
  - match goal with H : p_typ p2 = PMatchAll |- _ => rewrite Hst in H; [done|set_solver] end.
  - match goal with H : p_typ p2 = PMatchAll |- _ => rewrite Hst in H; [done|set_solver] end.
Qed.
Lemma static_accepts p u ss : uri_route re_ok u p -> all_static p -> uri_segs u = ss -> route_accepts re_find p ss.
Proof.
  unfold uri_route. intros Hu Hall <-. revert Hall. generalize (uri_segs_nonempty u).
  induction Hu as [|s q l r Hs Hl IH]; [done|]. intros _ Hall. inversion Hall; subst.
  assert (seg_accepts re_find q s).
  { unfold seg_accepts. apply analyze_grammar in Hs. destruct Hs; simpl in *; done. }
  destruct l as [|s' l]; inversion Hl; subst; [by constructor|]. apply accepts_next; [done|]. apply IH; [done|done].
Qed.

(** the leaf that Match finds for such a path *)
Lemma match_literal us T tbl path u k p n ps : adds re_ok us = Ok T -> routes_of (H:=handler A) re_ok us tbl ->
  us !! k = Some u -> tbl !! k = Some p -> all_static p -> uri_segs (fst u) = path_segs path ->
  Match re_find (Some T) path = (n, ps) -> exists n', n = Some n' /\ first_at tbl p (e_id n').
Proof.
  intros HT Hro Hu Hp Hall Hsegs HM.
  assert (Hup : uri_route re_ok (fst u) p) by (by apply (Forall2_lookup_lr _ _ _ _ _ _ Hro Hu)).
  pose proof (static_accepts _ _ _ Hup Hall Hsegs) as Hacc.
  destruct u as [u hs]. destruct (dispatch_complete _ re_ok re_find us T path HT u hs p) as (n' & ps' & HM');
    [by eapply elem_of_list_lookup_2|done|done|].
  rewrite HM in HM'. inversion HM'; subst n ps'. exists n'. split; [done|].
  destruct (dispatch_priority _ re_ok re_find us T path HT tbl n' ps Hro HM) as (q & Hq & Hfirst & Hbest).
  assert (p = q) as ->; [|by split].
  destruct (decide (p = q)) as [|Hne]; [done|]. exfalso.
  destruct (Hbest p) as [Hb _]; [by eapply elem_of_list_lookup_2|done|done|].
  destruct (dispatch_sound _ re_ok re_find us T path HT n' ps HM) as (u' & q' & Hu' & Hq' & Ha').
  assert (uri_route re_ok u' q) as Huq by (by apply (Forall2_lookup_lr _ _ _ _ _ _ Hro Hu')).
  rewrite (uri_route_fun _ _ _ _ Hq' Huq) in Ha'.
  by eapply static_wins in Hb.
Qed.
End More.
