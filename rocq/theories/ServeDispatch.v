(** Which route's handlers serve a request. *)
From Coq Require Import Sorted.
From Verif Require Import Base GoStr Strconv Pattern Tree GoStrFacts TreeSpec ListFacts TreeFacts TreeMatch TreeTop
  TreeOrder RoutingFacts Header Router RouterSpec RouterFacts RouterDump MethodFacts HandlerFacts RouterProps Ctx
  CtxFacts TraceSpec Engine ServeFacts ServeProps EngineSpec ServeTop.
Local Open Scope Z_scope.

Lemma MethodIndex_name m i : MethodIndex m = Some i -> _HTTP_METHODS_NAMES !! i = Some m.
Proof.
  unfold MethodIndex.
  repeat match goal with |- (if seqb m ?l then _ else _) = _ -> _ =>
    destruct (seqb m l) eqn:?Hs; [apply seqb_true in Hs; rewrite Hs; intros H; by inversion H|clear Hs] end.
  done.
Qed.
Lemma MethodIndex_inj a b i : MethodIndex a = Some i -> MethodIndex b = Some i -> a = b.
Proof. intros Ha Hb. apply MethodIndex_name in Ha, Hb. congruence. Qed.

Lemma uri_route_fun re_ok u p q : uri_route re_ok u p -> uri_route re_ok u q -> p = q.
Proof.
  unfold uri_route. revert p q. induction (uri_segs u) as [|s l IH]; intros p q Hp Hq;
    inversion Hp; inversion Hq; subst; [done|]. f_equal; [congruence|auto].
Qed.

Section Dispatch.
Context {A V : Type}.
Variable re_ok : gostr -> bool.
Variable re_find : gostr -> gostr -> option (list gostr).
Variable sniff : gostr -> gostr.
Variable parse_form : bool -> request -> gostr * bool -> gmap gostr (list gostr) * bool * gostr.
Variable code : handler A -> prog V.
Implicit Types x : ctxobj A V.
Implicit Types c : conn V.
Implicit Types e : engine A.

Local Notation ServeHTTP := (ServeHTTP re_find sniff parse_form code).
Local Notation find_node := (find_node re_find).
Local Notation ran := (ran sniff parse_form code).
Local Notation fits := (fits (A:=A) re_ok re_find).
Local Notation same_pattern := (same_pattern (A:=A) re_ok).
Local Notation verbatim := (verbatim re_ok).

Lemma engine_built ops r0 opts e : engine_of re_ok ops r0 opts e ->
  registrable re_ok (history ops) r0 opts /\ built re_ok (history ops) r0 opts e.
Proof.
  intros (hp & mem & mem' & Hr & Hh). apply run_heap in Hr as [-> Hw].
  apply Handler_built in Hh as (? & ? & _); [|done]. done.
Qed.

(** the routes of one method *)
Definition mroutes e (i : nat) : list (route A) := List.filter (of_method i) (routes e).
Lemma mroutes_in e i v : v ∈ mroutes e i <-> v ∈ routes e /\ MethodIndex (rt_method v) = Some i.
Proof.
  unfold mroutes. rewrite !elem_of_list_In, List.filter_In. unfold of_method. rewrite bool_decide_eq_true. done.
Qed.

Lemma filter_order {B} (f : B -> bool) (l : list B) : forall k w, l !! k = Some w -> f w = true ->
  exists a, List.filter f l !! a = Some w /\
    (forall b v, (b <= a)%nat -> List.filter f l !! b = Some v -> exists j, (j <= k)%nat /\ l !! j = Some v) /\
    (forall b v, (a <= b)%nat -> List.filter f l !! b = Some v -> exists j, (k <= j)%nat /\ l !! j = Some v).
Proof.
  induction l as [|x l IH]; intros k w Hk Hf; [done|]. destruct k as [|k]; simpl in Hk.
  - injection Hk as ->. simpl. rewrite Hf. exists 0%nat. split_and!; [done|..].
    + intros b v Hb Hv. assert (b = 0%nat) as -> by lia. simpl in Hv. injection Hv as ->. exists 0%nat. done.
    + intros b v _ Hv. destruct b as [|b]; simpl in Hv; [injection Hv as ->; by exists 0%nat|].
      apply elem_of_list_lookup_2 in Hv. rewrite elem_of_list_In, List.filter_In, <- elem_of_list_In in Hv.
      destruct Hv as [[j Hj]%elem_of_list_lookup _]. exists (Datatypes.S j). split; [lia|done].
  - destruct (IH k w Hk Hf) as (a & Ha & H1 & H2). simpl. destruct (f x) eqn:Hx.
    + exists (Datatypes.S a). split_and!; [done|..].
      * intros [|b] v Hb Hv; simpl in Hv; [injection Hv as ->; exists 0%nat; split; [lia|done]|].
        destruct (H1 b v) as (j & Hj & Hl); [lia|done|]. exists (Datatypes.S j). split; [lia|done].
      * intros [|b] v Hb Hv; [lia|]. destruct (H2 b v) as (j & Hj & Hl); [lia|done|]. exists (Datatypes.S j). split; [lia|done].
    + exists a. split_and!; [done|..].
      * intros b v Hb Hv. destruct (H1 b v) as (j & Hj & Hl); [lia|done|]. exists (Datatypes.S j). split; [lia|done].
      * intros b v Hb Hv. destruct (H2 b v) as (j & Hj & Hl); [lia|done|]. exists (Datatypes.S j). split; [lia|done].
Qed.

Section One.
Variables (e : engine A) (i : nat) (m : mrouter A) (tbl : list (list pat)).
Hypothesis Hm : en_routers e !! i = Some m.
Hypothesis Hinv : minv re_ok (o_static (en_options e)) (mroutes e i) m tbl.

Lemma tbl_route j v p : mroutes e i !! j = Some v -> tbl !! j = Some p -> uri_route re_ok (rt_variant v) p.
Proof.
  intros Hv Hp. pose proof (mi_routes _ _ _ _ _ Hinv) as Hro.
  assert (added (mroutes e i) !! j = Some (rt_variant v, rt_handlers v)) as Ha.
  { unfold added. rewrite list_lookup_fmap, Hv. done. }
  apply (Forall2_lookup_lr _ _ _ _ _ _ Hro Ha Hp).
Qed.
Lemma route_tbl j v : mroutes e i !! j = Some v -> exists p, tbl !! j = Some p /\ uri_route re_ok (rt_variant v) p.
Proof.
  intros Hv. pose proof (mi_routes _ _ _ _ _ Hinv) as Hro.
  assert (added (mroutes e i) !! j = Some (rt_variant v, rt_handlers v)) as Ha.
  { unfold added. rewrite list_lookup_fmap, Hv. done. }
  apply (Forall2_lookup_l _ _ _ _ _ Hro Ha).
Qed.
Lemma tbl_mroute j p : tbl !! j = Some p -> exists v, mroutes e i !! j = Some v /\ uri_route re_ok (rt_variant v) p.
Proof.
  intros Hp. pose proof (mi_routes _ _ _ _ _ Hinv) as Hro.
  destruct (Forall2_lookup_r _ _ _ _ _ Hro Hp) as ([u hs] & Ha & Hu).
  unfold added in Ha. rewrite list_lookup_fmap in Ha. destruct (mroutes e i !! j) as [v|] eqn:Hv; [|done].
  simpl in Ha. inversion Ha; subst. eauto.
Qed.
Lemma mroutes_same j k v w p : mroutes e i !! j = Some v -> mroutes e i !! k = Some w ->
  tbl !! j = Some p -> tbl !! k = Some p -> same_pattern v w.
Proof.
  intros Hv Hw Hp Hq. split.
  - apply elem_of_list_lookup_2 in Hv, Hw. apply mroutes_in in Hv as [_ Hv], Hw as [_ Hw]. by eapply MethodIndex_inj.
  - exists p. split; by eapply tbl_route.
Qed.
Lemma first_at_of p j v : first_at tbl p j -> mroutes e i !! j = Some v -> first_of re_ok e v.
Proof.
  intros [Hp Hf] Hv k w Hk [Hmw (q & Hq & Hq')].
  assert (of_method i w = true) as Hw.
  { apply elem_of_list_lookup_2 in Hv. apply mroutes_in in Hv as [_ Hv]. unfold of_method. apply bool_decide_eq_true. by rewrite <- Hmw. }
  destruct (filter_order (of_method i) (routes e) k w Hk Hw) as (a & Ha & H1 & _).
  destruct (route_tbl a w Ha) as (q2 & Hq2 & Hr2). rewrite (uri_route_fun _ _ _ _ Hr2 Hq') in Hq2.
  rewrite (uri_route_fun _ _ _ _ Hq (tbl_route _ _ _ Hv Hp)) in Hq2.
  apply (H1 j v); [|done]. destruct (decide (j <= a)%nat); [done|]. exfalso. by apply (Hf a); [lia|].
Qed.
Lemma last_at_of p j v : last_at tbl p j -> mroutes e i !! j = Some v -> last_of re_ok e v.
Proof.
  intros [Hp Hf] Hv k w Hk [Hmw (q & Hq & Hq')].
  assert (of_method i w = true) as Hw.
  { apply elem_of_list_lookup_2 in Hv. apply mroutes_in in Hv as [_ Hv]. unfold of_method. apply bool_decide_eq_true. by rewrite <- Hmw. }
  destruct (filter_order (of_method i) (routes e) k w Hk Hw) as (a & Ha & _ & H2).
  destruct (route_tbl a w Ha) as (q2 & Hq2 & Hr2). rewrite (uri_route_fun _ _ _ _ Hr2 Hq') in Hq2.
  rewrite (uri_route_fun _ _ _ _ Hq (tbl_route _ _ _ Hv Hp)) in Hq2.
  apply (H2 j v); [|done]. destruct (decide (a <= j)%nat); [done|]. exfalso. by apply (Hf a); [lia|].
Qed.
(** the route recorded for a leaf *)
Lemma match_last p j : first_at tbl p j -> exists k w, m_match m !! j = Some w /\ mroutes e i !! k = Some w /\ last_at tbl p k.
Proof.
  intros Hf. assert (p ∈ tbl) as Hin by (eapply elem_of_list_lookup_2; apply Hf).
  destruct (last_at_exists _ _ Hin) as [k Hk]. destruct (tbl_mroute k p (proj1 Hk)) as (w & Hw & _).
  exists k, w. split; [|done]. apply (mi_match _ _ _ _ _ Hinv). eauto.
Qed.

Inductive found (path : gostr) (old : option Params) :
    option (enode (handler A) * option (route A)) * option Params -> Prop :=
  | found_static n u k w v p j :
      o_static (en_options e) = true -> m_static m !! path = Some n ->
      mroutes e i !! k = Some u -> rt_variant u = path -> tbl !! k = Some p -> all_static p ->
      first_at tbl p (e_id n) -> mroutes e i !! e_id n = Some v -> e_handlers n = rt_handlers v ->
      last_at tbl p j -> mroutes e i !! j = Some w ->
      found path old (Some (n, Some w), old)
  | found_tree T n ps w v p j :
      m_tree m = Some T -> adds re_ok (added (mroutes e i)) = Ok T ->
      (o_static (en_options e) = true -> m_static m !! path = None) ->
      Match re_find (Some T) path = (Some n, ps) ->
      first_at tbl p (e_id n) -> mroutes e i !! e_id n = Some v -> e_handlers n = rt_handlers v ->
      route_accepts re_find p (path_segs path) ->
      last_at tbl p j -> mroutes e i !! j = Some w ->
      found path old (Some (n, Some w), ps)
  | found_none ps :
      (o_static (en_options e) = true -> m_static m !! path = None) ->
      Match re_find (m_tree m) path = (None, ps) ->
      (forall v p, v ∈ mroutes e i -> uri_route re_ok (rt_variant v) p -> ~ route_accepts re_find p (path_segs path)) ->
      found path old (None, ps).

Lemma find_found path old : found path old (find_node e i path old).
Proof.
  unfold Engine.find_node. rewrite Hm.
  assert (Htree : (o_static (en_options e) = true -> m_static m !! path = None) ->
    found path old (let '(n, ps) := Match re_find (m_tree m) path in ((fun n => (n, m_match m !! e_id n)) <$> n, ps))).
  { intros Hno. destruct (Match re_find (m_tree m) path) as [[n|] ps] eqn:HM; simpl.
    - pose proof (mi_tree _ _ _ _ _ Hinv) as HT. destruct (m_tree m) as [T|] eqn:HmT; [|by inversion HM].
      destruct (dispatch_priority _ re_ok re_find _ T path HT tbl n ps (mi_routes _ _ _ _ _ Hinv) HM) as (p & Hp & Hfirst & _).
      destruct (dispatch_sound _ re_ok re_find _ T path HT n ps HM) as (u & p' & Hu & Hr & Ha).
      unfold added in Hu. rewrite list_lookup_fmap in Hu. destruct (mroutes e i !! e_id n) as [v|] eqn:Hv; [|done].
      simpl in Hu. inversion Hu; subst u.
      assert (p' = p) as ->.
      { pose proof (tbl_route _ _ _ Hv Hp) as Hr'. by eapply uri_route_fun. }
      destruct (match_last p (e_id n)) as (k & w & Hw & Hk & Hl); [by split|]. rewrite Hw.
      by eapply found_tree.
    - apply found_none; [done|done|]. intros v p Hv Hp Ha.
      pose proof (mi_tree _ _ _ _ _ Hinv) as HT. destruct (m_tree m) as [T|].
      + assert ((rt_variant v, rt_handlers v) ∈ added (mroutes e i)) as Hin.
        { unfold added. apply elem_of_list_fmap. eauto. }
        destruct (dispatch_complete _ re_ok re_find _ T path HT _ _ _ Hin Hp Ha) as (n' & ps' & Hbad). congruence.
      + rewrite HT in Hv. by apply elem_of_nil in Hv. }
  case_eq (o_static (en_options e)); intros Hst; [|apply Htree; by rewrite Hst].
  destruct (m_static m !! path) as [n|] eqn:Hn; [|by apply Htree].
  destruct (mi_static _ _ _ _ _ Hinv _ _ Hn) as (_ & k & u & p & Hu & Hpath & Hp & Hall & Hfirst & v & Hv & Hh).
  destruct (match_last p (e_id n) Hfirst) as (j & w & Hw & Hj & Hl). rewrite Hw.
  by apply (found_static path old n u k w v p j).
Qed.
End One.

(** ** Requests to an engine *)
Inductive handled e (id : nat) (req : request) (body : rbody) (en : ending) (c' : conn V) : Prop :=
  | hd_refused n : refused req n -> en = EDone -> c' = bare req body n -> handled e id req body en c'
  | hd_notfound : (forall n, ~ refused req n) ->
      (forall v, v ∈ routes e -> ~ fits v req /\ ~ verbatim e v req) ->
      o_nofound (en_options e) = [] -> en = EDone -> c' = bare req body 404 -> handled e id req body en c'
  | hd_nofound ps : (forall n, ~ refused req n) ->
      (forall v, v ∈ routes e -> ~ fits v req /\ ~ verbatim e v req) ->
      o_nofound (en_options e) <> [] -> ran id (o_nofound (en_options e)) ps None req body en c' ->
      handled e id req body en c'
  | hd_route v w n ps : (forall n, ~ refused req n) -> v ∈ routes e -> w ∈ routes e -> same_pattern v w ->
      first_of re_ok e v -> last_of re_ok e w ->
      (fits v req \/ exists u, u ∈ routes e /\ verbatim e u req /\ same_pattern u v) ->
      e_handlers n = rt_handlers v -> ran id (rt_handlers v) ps (Some (n, Some w)) req body en c' ->
      handled e id req body en c'.

Lemma passes_not_refused req i : ~ unacceptable req -> MethodIndex (rq_method req) = Some i -> forall n, ~ refused req n.
Proof.
  intros Hu Hi n Hn. apply refusal_refused in Hn. assert (refusal req = inr i) by (by apply refusal_none). congruence.
Qed.
Lemma mrouter_of ops r0 opts e i req : engine_of re_ok ops r0 opts e -> MethodIndex req = Some i ->
  exists m tbl, en_routers e !! i = Some m /\ minv re_ok (o_static (en_options e)) (mroutes e i) m tbl.
Proof.
  intros He Hi. apply engine_built in He as [_ [_ _ _ Hlen _ Hr]].
  destruct (lookup_lt_is_Some_2 (en_routers e) i) as [m Hm].
  { apply MethodIndex_lt in Hi. lia. }
  destruct (Hr _ _ Hm) as [tbl Ht]. eauto.
Qed.

Lemma serve_handled ops r0 opts e id x req body en px c' : engine_of re_ok ops r0 opts e ->
  ServeHTTP e id x (arrive req body) = (en, px, c') -> handled e id req body en c'.
Proof.
  intros He H. apply serve_split in H as [(n & Hn & -> & ->)|(i & Hu & Hi & H)]; [by eapply hd_refused|].
  pose proof (passes_not_refused _ _ Hu Hi) as Hnr.
  destruct (mrouter_of _ _ _ _ _ _ He Hi) as (m & tbl & Hm & Hinv).
  assert (Hmeth : forall v, v ∈ mroutes e i <-> v ∈ routes e /\ rt_method v = rq_method req).
  { intros v. rewrite mroutes_in. split; intros [? Hv]; (split; [done|]); [by eapply MethodIndex_inj|by rewrite Hv]. }
  pose proof (find_found e i m tbl Hm Hinv (rq_path req) (x_params x)) as Hf.
  destruct Hf as [n u k w v p j Hst Hs Hu' Hpath Hp Hall Hfirst Hv Hh Hlast Hw
                 |T n ps w v p j HT HA Hno HM Hfirst Hv Hh Hacc Hlast Hw|ps Hno HM Hnone].
  - assert (v ∈ mroutes e i /\ w ∈ mroutes e i /\ u ∈ mroutes e i) as (V1 & W1 & U1)
      by (split_and!; by eapply elem_of_list_lookup_2).
    apply Hmeth in V1 as [V1 V2], W1 as [W1 W2], U1 as [U1 U2].
    rewrite Hh in H. eapply (hd_route _ _ _ _ _ _ v w n); try done.
    + eapply (mroutes_same e i m tbl Hinv); [exact Hv|exact Hw|apply Hfirst|apply Hlast].
    + by eapply (first_at_of e i m tbl Hinv).
    + by eapply (last_at_of e i m tbl Hinv).
    + right. exists u. split; [done|]. split.
      * split_and!; try done. exists p. split; [by eapply (tbl_route e i m tbl Hinv)|done].
      * eapply (mroutes_same e i m tbl Hinv); [exact Hu'|exact Hv|done|apply Hfirst].
  - assert (v ∈ mroutes e i /\ w ∈ mroutes e i) as (V1 & W1) by (split_and!; by eapply elem_of_list_lookup_2).
    apply Hmeth in V1 as [V1 V2], W1 as [W1 W2].
    rewrite Hh in H. eapply (hd_route _ _ _ _ _ _ v w n); try done.
    + eapply (mroutes_same e i m tbl Hinv); [exact Hv|exact Hw|apply Hfirst|apply Hlast].
    + by eapply (first_at_of e i m tbl Hinv).
    + by eapply (last_at_of e i m tbl Hinv).
    + left. split; [done|]. exists p. split; [|done]. eapply (tbl_route e i m tbl Hinv); [done|apply Hfirst].
  - assert (Hnf : forall v, v ∈ routes e -> ~ fits v req /\ ~ verbatim e v req).
    { intros v Hv. split.
      - intros [Hmv (p & Hp & Ha)]. by eapply (Hnone v p); [apply Hmeth|..].
      - intros (Hst & Hmv & Hpath & (p & Hp & Hall)).
        assert (v ∈ mroutes e i) as [k Hk]%elem_of_list_lookup_1 by (by apply Hmeth).
        destruct (route_tbl e i m tbl Hinv _ _ Hk) as (p' & Hp' & Hr). rewrite (uri_route_fun _ _ _ _ Hp Hr) in Hall.
        destruct (mi_static_all _ _ _ _ _ Hinv Hst _ _ _ Hk Hp' Hall) as [n Hn].
        rewrite Hpath, (Hno Hst) in Hn. done. }
    destruct (o_nofound (en_options e)) as [|h hs] eqn:Hn.
    + destruct H as [-> ->]. by apply hd_notfound.
    + eapply (hd_nofound _ _ _ _ _ _ ps); [done|done|by rewrite Hn|by rewrite Hn].
Qed.
End Dispatch.
