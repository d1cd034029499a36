(** What the engine holds for one method, against the list of routes given. *)
From Verif Require Import Base GoStr Strconv Pattern Tree GoStrFacts TreeSpec ListFacts TreeFacts TreeMatch TreeTop
  Router.

Section Method.
Context {A : Type}.
Variable re_ok : gostr -> bool.
Variable re_find : gostr -> gostr -> option (list gostr).
Variable static : bool.
Implicit Types l : list (route A).
Implicit Types m : mrouter A.

(** the routes as tree.add sees them *)
Definition added l : list (gostr * list (handler A)) := map (fun v => (rt_variant v, rt_handlers v)) l.

(** the position is the first (last) of the table with that route *)
Definition first_at (tbl : list (list pat)) (r : list pat) (j : nat) : Prop :=
  tbl !! j = Some r /\ forall i, i < j -> tbl !! i <> Some r.
Definition last_at (tbl : list (list pat)) (r : list pat) (j : nat) : Prop :=
  tbl !! j = Some r /\ forall i, j < i -> tbl !! i <> Some r.
Definition all_static (r : list pat) : Prop := Forall (fun p => p_typ p = PStatic) r.

Fixpoint add_routes m l : res (mrouter A) :=
  match l with
  | [] => Ok m
  | v :: l' => let! m' := add_route re_ok static m v in add_routes m' l'
  end.

Record minv l m (tbl : list (list pat)) : Prop := {
  mi_routes : routes_of re_ok (added l) tbl;
  mi_tree : match m_tree m with
            | None => l = []
            | Some T => adds re_ok (added l) = Ok T
            end;
  mi_count : m_count m = length l;
  mi_match : forall j rt, m_match m !! j = Some rt <->
    exists i r, l !! i = Some rt /\ first_at tbl r j /\ last_at tbl r i;
  mi_static : forall u e, m_static m !! u = Some e ->
    static = true /\
    exists i v r, l !! i = Some v /\ rt_variant v = u /\ tbl !! i = Some r /\ all_static r /\
      first_at tbl r (e_id e) /\ exists w, l !! e_id e = Some w /\ e_handlers e = rt_handlers w;
  mi_static_all : static = true -> forall i v r, l !! i = Some v -> tbl !! i = Some r -> all_static r ->
    is_Some (m_static m !! rt_variant v);
  mi_some : m_tree m <> None -> l <> []
}.

Lemma minv_empty : minv [] empty_mrouter [].
Proof.
  constructor; simpl; try done.
  - constructor.
  - intros j rt. rewrite lookup_empty. split; [done|]. intros (i & r & Hi & _). by rewrite lookup_nil in Hi.
Qed.

Lemma adds_from_app (us1 us2 : list (gostr * list (handler A))) : forall n i,
  adds_from re_ok n i (us1 ++ us2) =
  let! n' := adds_from re_ok n i us1 in adds_from re_ok n' (i + length us1) us2.
Proof.
  induction us1 as [|[u hs] us1 IH]; intros n i; simpl.
  - by rewrite Nat.add_0_r.
  - destruct (add re_ok n u i hs) as [[[n' e] ts]| |]; simpl; [|done|done].
    rewrite IH. by rewrite Nat.add_succ_r.
Qed.

Lemma forallb_static r : forallb (fun t => match t with PStatic => true | _ => false end) (map p_typ r) = true
  <-> all_static r.
Proof.
  unfold all_static. induction r as [|p r IH]; simpl; [split; [constructor|done]|].
  rewrite andb_true_iff, IH. split.
  - intros [Hp Hr]. constructor; [|done]. by destruct (p_typ p).
  - inversion 1; subst. split; [|done]. by rewrite H2.
Qed.


Lemma payloads_app i (us1 us2 : list (gostr * list (handler A))) t1 t2 : length us1 = length t1 ->
  payloads i (us1 ++ us2) (t1 ++ t2) = payloads i us1 t1 ++ payloads (i + length us1) us2 t2.
Proof.
  revert i t1. induction us1 as [|[u hs] us1 IH]; intros i [|r t1] Hl; simpl in *; try done.
  - by rewrite Nat.add_0_r.
  - rewrite IH by lia. by rewrite Nat.add_succ_r.
Qed.

Lemma last_at_snoc tbl r i r0 : last_at (tbl ++ [r0]) r i <->
  (r = r0 /\ i = length tbl) \/ (r <> r0 /\ last_at tbl r i).
Proof.
  unfold last_at. split.
  - intros [Hi Hl]. apply lookup_app_Some in Hi as [Hi|[Hge Hi]].
    + right. pose proof (lookup_lt_Some _ _ _ Hi). split.
      * intros ->. apply (Hl (length tbl)); [done|]. rewrite lookup_app_r by lia. by rewrite Nat.sub_diag.
      * split; [done|]. intros i' Hi' Hc. apply (Hl i' Hi'). by apply lookup_app_l_Some.
    + apply list_lookup_singleton_Some in Hi as [Hi ->]. left. split; [done|lia].
  - intros [[-> ->]|[Hne [Hi Hl]]].
    + split; [rewrite lookup_app_r by lia; by rewrite Nat.sub_diag|].
      intros i' Hi' Hc. rewrite lookup_app_r in Hc by lia. apply list_lookup_singleton_Some in Hc as [? _]. lia.
    + split; [by apply lookup_app_l_Some|]. intros i' Hi' Hc.
      apply lookup_app_Some in Hc as [Hc|[_ Hc]]; [by apply (Hl i')|].
      apply list_lookup_singleton_Some in Hc as [_ Hc]. congruence.
Qed.
Lemma first_at_app tbl t2 r j : first_at tbl r j -> first_at (tbl ++ t2) r j.
Proof.
  intros [Hj Hf]. pose proof (lookup_lt_Some _ _ _ Hj). split; [by apply lookup_app_l_Some|].
  intros i Hi. rewrite lookup_app_l by lia. by apply Hf.
Qed.
Lemma first_at_snoc_inv tbl r r0 j : first_at (tbl ++ [r0]) r j ->
  (first_at tbl r j) \/ (r = r0 /\ j = length tbl /\ r ∉ tbl).
Proof.
  intros [Hj Hf]. apply lookup_app_Some in Hj as [Hj|[Hge Hj]].
  - left. pose proof (lookup_lt_Some _ _ _ Hj). split; [done|]. intros i Hi Hc. apply (Hf i Hi).
    by apply lookup_app_l_Some.
  - apply list_lookup_singleton_Some in Hj as [Hj ->]. right. split_and!; [done|lia|].
    intros Hin. apply elem_of_list_lookup in Hin as [i Hi]. apply (Hf i); [apply lookup_lt_Some in Hi; lia|].
    by apply lookup_app_l_Some.
Qed.
Lemma first_at_fun tbl r j j' : first_at tbl r j -> first_at tbl r j' -> j = j'.
Proof.
  intros [H1 H2] [H3 H4]. destruct (lt_eq_lt_dec j j') as [[Hl|Hl]|Hl]; [|done|].
  - by apply H4 in Hl.
  - by apply H2 in Hl.
Qed.
Lemma last_at_exists (tbl : list (list pat)) r : r ∈ tbl -> exists j, last_at tbl r j.
Proof.
  intros Hin. induction tbl as [|x tbl IH] using rev_ind; [by apply elem_of_nil in Hin|].
  destruct (decide (r = x)) as [->|Hne].
  - exists (length tbl). apply last_at_snoc. by left.
  - apply elem_of_app in Hin as [Hin|Hin]; [|by apply elem_of_list_singleton in Hin].
    destruct (IH Hin) as (j & Hj). exists j. apply last_at_snoc. by right.
Qed.

Lemma minv_snoc l m tbl v m' : minv l m tbl -> add_route re_ok static m v = Ok m' ->
  exists r, minv (l ++ [v]) m' (tbl ++ [r]) /\ uri_route re_ok (rt_variant v) r.
Proof.
  intros [I1 I2 I3 I4 I5 I6 _] Ha. unfold add_route in Ha.
  set (t := match m_tree m with Some t => t | None => newTree end) in Ha.
  apply rbind_ok in Ha as ([[t' e] kinds] & Hadd & Ha).
  assert (Ht : adds re_ok (added l) = Ok t).
  { subst t. destruct (m_tree m); [done|]. by rewrite I2. }
  clearbody t.
  assert (Hlen : length (added l) = length tbl) by (by eapply Forall2_length).
  assert (Hll : length l = length tbl) by (by rewrite <- Hlen; unfold added; rewrite map_length).
  destruct (adds_from_rep re_ok re_find (added l) newTree 0 [] t) as (tbl' & Hro & Hrep & Htok);
    [apply rep_empty|constructor|done|].
  rewrite (routes_of_fun re_ok _ _ _ Hro I1) in Hrep, Htok. simpl in Hrep, Htok.
  pose proof Hadd as Hadd0.
  rewrite add_eq in Hadd. apply rbind_ok in Hadd as ([[n2 e2] ts2] & Hadd & Heq).
  injection Heq as -> -> <-.
  destruct (add_segs_rep re_ok re_find _ t _ _ _ _ _ _ Hrep Htok Hadd) as (r & Hf & Hp & Hr' & Hts & Hff).
  exists r. split; [|done]. subst ts2.
  (* the first position of r *)
  assert (Hfirst : first_at (tbl ++ [r]) r (e_id e) /\
                   exists w, (l ++ [v]) !! e_id e = Some w /\ e_handlers e = rt_handlers w).
  { rewrite I3 in Hff. replace (length l) with (0 + length (added l)) in Hff by (unfold added; rewrite map_length; lia).
    assert (Hpay : payloads 0 (added l) tbl ++ [(r, (0 + length (added l), rt_handlers v))] =
                   payloads 0 (added (l ++ [v])) (tbl ++ [r])).
    { unfold added at 3. rewrite map_app. fold (added l). rewrite payloads_app by done. done. }
    rewrite Hpay in Hff. apply payloads_find in Hff as (j & u & Hid & Hu & Hr & Hmin).
    2: { unfold added. rewrite map_length, !app_length. simpl. lia. }
    simpl in Hid. subst j. split; [by split|]. unfold added in Hu. rewrite list_lookup_fmap in Hu.
    destruct ((l ++ [v]) !! e_id e) as [w|]; [|done]. simpl in Hu. inversion Hu; subst. eauto. }
  destruct Hfirst as [Hfirst Hw]. injection Ha as <-. constructor; cbn [m_tree m_count m_match m_static].
  - unfold added. rewrite map_app. apply Forall2_app; [done|]. repeat constructor. simpl. done.
  - unfold adds, added. rewrite map_app. rewrite adds_from_app. fold (added l). unfold adds in Ht. rewrite Ht. simpl.
    unfold added. rewrite map_length. rewrite I3 in Hadd0. rewrite Hadd0. done.
  - rewrite app_length. simpl. lia.
  - intros j rt. destruct (decide (j = e_id e)) as [->|Hne].
    + rewrite lookup_insert. split.
      * intros [= <-]. exists (length tbl), r. split_and!; [rewrite lookup_app_r by lia; by rewrite Hll, Nat.sub_diag|done|].
        apply last_at_snoc. by left.
      * intros (i & r' & Hi & Hf1 & Hl1). assert (r' = r) as ->.
        { destruct Hf1 as [Hf1 _]. destruct Hfirst as [Hfirst _]. congruence. }
        apply last_at_snoc in Hl1 as [[_ ->]|[? _]]; [|done].
        rewrite lookup_app_r in Hi by lia. rewrite Hll, Nat.sub_diag in Hi. done.
    + rewrite lookup_insert_ne by done. rewrite I4. split.
      * intros (i & r' & Hi & Hf1 & Hl1). exists i, r'. split_and!; [by apply lookup_app_l_Some|by apply first_at_app|].
        apply last_at_snoc. right. split; [|done]. intros ->. apply Hne.
        eapply first_at_fun; [|done]. by apply first_at_app.
      * intros (i & r' & Hi & Hf1 & Hl1). apply last_at_snoc in Hl1 as [[-> ->]|[Hrr Hl1]].
        -- exfalso. apply Hne. by eapply first_at_fun.
        -- exists i, r'. split; [|split; [|done]].
           2: { apply first_at_snoc_inv in Hf1 as [?|[-> _]]; done. }
           destruct Hl1 as [Hl1 _]. apply lookup_lt_Some in Hl1. by rewrite lookup_app_l in Hi by lia.
  - intros u e' He'.
    assert (Hold : m_static m !! u = Some e' -> static = true ∧ ∃ (i : nat) (v0 : route A) (r0 : list pat),
      (l ++ [v]) !! i = Some v0 ∧ rt_variant v0 = u ∧ (tbl ++ [r]) !! i = Some r0 ∧ all_static r0 ∧
      first_at (tbl ++ [r]) r0 (e_id e') ∧ exists w, (l ++ [v]) !! e_id e' = Some w /\ e_handlers e' = rt_handlers w).
    { intros Ho. destruct (I5 _ _ Ho) as (Hs & i & v0 & r0 & Hi & Hu & Hr0 & Has & Hf1 & w & Hw1 & Hw2).
      split; [done|]. exists i, v0, r0. split_and!; try done; [by apply lookup_app_l_Some|by apply lookup_app_l_Some|by apply first_at_app|].
      exists w. split; [by apply lookup_app_l_Some|done]. }
    match type of He' with (if ?b then _ else _) !! _ = _ => destruct b eqn:Hst end; [|by apply Hold].
    apply andb_true_iff in Hst as [Hs Hst].
    destruct (decide (u = rt_variant v)) as [->|Hne].
    + rewrite lookup_insert in He'. inversion He'; subst e'. split; [done|].
      exists (length tbl), v, r. split_and!; try done.
      * rewrite lookup_app_r by lia. by rewrite Hll, Nat.sub_diag.
      * rewrite lookup_app_r by lia. by rewrite Nat.sub_diag.
      * unfold isStaticRoute in Hst. simpl in Hst. apply andb_true_iff in Hst as [_ Hst]. by apply forallb_static.
    + rewrite lookup_insert_ne in He' by done. by apply Hold.
  - intros Hs i v0 r0 Hi Hr0 Has.
    apply lookup_app_Some in Hi as [Hi|[Hge Hi]].
    + pose proof (lookup_lt_Some _ _ _ Hi). rewrite lookup_app_l in Hr0 by lia.
      destruct (I6 Hs _ _ _ Hi Hr0 Has) as [e' He'].
      match goal with |- context [if ?b then _ else _] => destruct b end; [|by exists e'].
      destruct (decide (rt_variant v0 = rt_variant v)) as [->|Hne]; [rewrite lookup_insert; by eexists|].
      rewrite lookup_insert_ne by done. by exists e'.
    + apply list_lookup_singleton_Some in Hi as [Hi ->].
      rewrite lookup_app_r in Hr0 by lia. rewrite <- Hll, Hi in Hr0. simpl in Hr0. inversion Hr0; subst r0.
      rewrite Hs. unfold isStaticRoute. simpl.
      assert (n_typ t = PStatic) as ->.
      { assert (Hroot : forall us n i T, adds_from re_ok n i us = Ok T -> n_pat (H:=handler A) T = n_pat n).
        { clear. induction us as [|[u hs] us IH]; intros n i T Ha; simpl in Ha; [by inversion Ha|].
          apply rbind_ok in Ha as ([[n' e] ts] & H1 & H2). apply IH in H2. rewrite H2.
          rewrite add_eq in H1. apply rbind_ok in H1 as ([[n2 e2] ts2] & H1 & H3). inversion H3; subst.
          clear -H1. destruct (uri_segs u) as [|s [|s2 rest]]; simpl in H1; [done| |].
          - unfold addEndNode in H1. destruct (find_split _ _) as [[[? ?] ?]|]; [by inversion H1|].
            apply rbind_ok in H1 as (? & _ & H1). by inversion H1.
          - destruct (find_split _ _) as [[[? ?] ?]|].
            + apply rbind_ok in H1 as ([[? ?] ?] & _ & H1). by inversion H1.
            + apply rbind_ok in H1 as (? & _ & H1). apply rbind_ok in H1 as ([[? ?] ?] & _ & H1). by inversion H1. }
        unfold n_typ. unfold adds in Ht. apply Hroot in Ht. by rewrite Ht. }
      apply forallb_static in Has. simpl. rewrite Has. rewrite lookup_insert. by eexists.
  - intros _. by destruct l.
Qed.

Lemma add_routes_inv l2 : forall l1 m tbl m', minv l1 m tbl -> add_routes m l2 = Ok m' ->
  exists tbl', minv (l1 ++ l2) m' tbl'.
Proof.
  induction l2 as [|v l2 IH]; intros l1 m tbl m' Hi Ha; simpl in Ha.
  - inversion Ha; subst. rewrite app_nil_r. eauto.
  - apply rbind_ok in Ha as (m1 & Ha1 & Ha). destruct (minv_snoc _ _ _ _ _ Hi Ha1) as (r & Hi' & _).
    destruct (IH _ _ _ _ Hi' Ha) as (tbl' & Ht). exists tbl'. by rewrite <- app_assoc in Ht.
Qed.

Lemma add_routes_minv l m : add_routes empty_mrouter l = Ok m -> exists tbl, minv l m tbl.
Proof. intros Ha. by destruct (add_routes_inv l [] _ _ _ minv_empty Ha) as [tbl Ht]; eauto. Qed.

(** adding succeeds exactly when all segments are legal *)
Lemma add_routes_ok l : forall m, (exists tbl, routes_of re_ok (added l) tbl) -> is_ok (add_routes m l).
Proof.
  induction l as [|v l IH]; intros m [tbl Hro]; simpl; [by eexists|].
  inversion Hro as [|? r ? tbl' Hu Hro']; subst.
  unfold add_route. rewrite add_eq.
  destruct (add_segs_ok re_ok (uri_segs (rt_variant v))
    (match m_tree m with Some t => t | None => newTree end) (m_count m) (rt_handlers v)) as ([[n' e] ts] & ->).
  - apply uri_segs_nonempty.
  - unfold uri_route in Hu. simpl in Hu. clear -Hu. induction Hu; constructor; [by eexists|done].
  - cbn [rbind]. apply IH. eauto.
Qed.

End Method.
