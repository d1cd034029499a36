(** What a string without the white space at both ends is, is determined. *)
From Verif Require Import Base GoStr GoStrFacts Getters GetterSpec GetterFacts.

Definition cont (a : ascii) : bool := (128 <=? byte_of a)%N && (byte_of a <? 192)%N.
Lemma rune_bytes x : x ∈ space_runes -> exists a y, x = a :: y /\ cont a = false /\ Forall (fun b => cont b = true) y.
Proof.
  intros H. assert (forallb (fun x => match x with [] => false | a :: y => negb (cont a) && forallb cont y end) space_runes = true) as Hall by (vm_compute; reflexivity).
  rewrite forallb_forall in Hall. apply elem_of_list_In in H. specialize (Hall x H). destruct x as [|a y]; [done|].
  apply andb_true_iff in Hall as [H1 H2]. exists a, y. split; [done|]. split; [by destruct (cont a)|].
  apply Forall_forall. intros b Hb. rewrite forallb_forall in H2. apply H2. by apply elem_of_list_In.
Qed.
(** no space is the beginning or the end of another *)
Lemma rune_apart x x' u u' : x ∈ space_runes -> x' ∈ space_runes -> x ++ u = x' ++ u' -> x = x' /\ u = u'.
Proof.
  assert (forallb (fun x => forallb (fun x' => bool_decide (x = x') || negb (has_prefix x x')) space_runes) space_runes = true) as Hall by (vm_compute; reflexivity).
  assert (forall y z, y ∈ space_runes -> y ++ z ∈ space_runes -> z = []) as Hno.
  { intros y z Hy Hz. apply elem_of_list_In in Hy, Hz. rewrite forallb_forall in Hall. specialize (Hall y Hy). rewrite forallb_forall in Hall. specialize (Hall _ Hz).
    apply orb_true_iff in Hall as [E|E]; [|by rewrite has_prefix_app in E]. apply bool_decide_eq_true in E.
    rewrite <- (app_nil_r y) in E at 1. by apply app_inv_head in E. }
  intros Hx Hx' E. apply app_eq_app in E as (k & [[-> ->]|[-> ->]]).
  - rewrite (Hno x' k) by done. by rewrite app_nil_r.
  - rewrite (Hno x k) by done. by rewrite app_nil_r.
Qed.
Lemma rune_apart_end x x' u u' : x ∈ space_runes -> x' ∈ space_runes -> u ++ x = u' ++ x' -> x = x' /\ u = u'.
Proof.
  assert (forallb (fun x => forallb (fun x' => bool_decide (x = x') || negb (has_prefix (rev x) (rev x'))) space_runes) space_runes = true) as Hall by (vm_compute; reflexivity).
  assert (forall y z, y ∈ space_runes -> z ++ y ∈ space_runes -> z = []) as Hno.
  { intros y z Hy Hz. apply elem_of_list_In in Hy, Hz. rewrite forallb_forall in Hall. specialize (Hall y Hy). rewrite forallb_forall in Hall. specialize (Hall _ Hz).
    apply orb_true_iff in Hall as [E|E]; [|by rewrite rev_app_distr, has_prefix_app in E]. apply bool_decide_eq_true in E.
    change y with ([] ++ y) in E at 1. by apply app_inv_tail in E. }
  intros Hx Hx' E. apply app_eq_app in E as (k & [[-> ->]|[-> ->]]).
  - rewrite (Hno x k) by done. by rewrite app_nil_r.
  - rewrite (Hno x' k) by done. by rewrite app_nil_r.
Qed.
Notation runes := (Forall (fun x => x ∈ space_runes)).
Lemma front_unique l l' u u' : runes l -> runes l' -> no_space_prefix u -> no_space_prefix u' -> concat l ++ u = concat l' ++ u' -> u = u'.
Proof.
  intros Hl. revert l'. induction Hl as [|x l Hx _ IH]; intros l' Hl' Hu Hu' E.
  - destruct Hl' as [|x l' Hx _]; [done|]. cbn in E. rewrite <- app_assoc in E. by destruct (Hu x _ Hx E).
  - destruct Hl' as [|x' l' Hx' Hl'].
    + cbn in E. rewrite <- app_assoc in E. by destruct (Hu' x _ Hx (eq_sym E)).
    + cbn in E. rewrite <- !app_assoc in E. apply rune_apart in E as [-> E]; [|done..]. by apply (IH l').
Qed.
Lemma back_unique l : forall l' u u', runes l -> runes l' -> no_space_suffix u -> no_space_suffix u' -> u ++ concat l = u' ++ concat l' -> u = u'.
Proof.
  induction l as [|x l IH] using rev_ind; intros l' u u' Hl Hl' Hu Hu' E.
  - destruct l' as [|x' l' _] using rev_ind; [cbn in E; by rewrite !app_nil_r in E|]. apply Forall_app in Hl' as [_ Hx%Forall_cons_1]. destruct Hx as [Hx _].
    rewrite concat_app in E. cbn in E. rewrite !app_nil_r, app_assoc in E. by destruct (Hu x' _ Hx E).
  - apply Forall_app in Hl as [Hl Hx%Forall_cons_1]. destruct Hx as [Hx _]. destruct l' as [|x' l' _] using rev_ind.
    + rewrite concat_app in E. cbn in E. rewrite !app_nil_r, app_assoc in E. by destruct (Hu' x _ Hx (eq_sym E)).
    + apply Forall_app in Hl' as [Hl' Hx'%Forall_cons_1]. destruct Hx' as [Hx' _]. rewrite !concat_app in E. cbn in E. rewrite !app_nil_r, !app_assoc in E.
      apply rune_apart_end in E as [-> E]; [|done..]. by apply (IH l').
Qed.
Lemma no_prefix_nil : no_space_prefix [].
Proof. intros x t Hx E. apply rune_bytes in Hx as (a & y & -> & _). done. Qed.
Lemma no_prefix_more t r : runes r -> t <> [] -> no_space_prefix t -> no_space_prefix (t ++ concat r).
Proof.
  intros Hr Ht Hn x t' Hx E. apply app_eq_app in E as (k & [[-> E]|[-> E]]); [by destruct (Hn x k Hx)|].
  destruct k as [|b k]; [by rewrite app_nil_r in Hx; destruct (Hn t [] Hx); rewrite app_nil_r|].
  destruct Hr as [|y r Hy _]; [done|]. apply rune_bytes in Hy as (c & y' & -> & Hc & _). cbn in E. injection E as -> _.
  apply rune_bytes in Hx as (a & z & Ex & _ & Hz). destruct t as [|a' t]; [done|]. injection Ex as -> <-.
  rewrite Forall_app, Forall_cons in Hz. destruct Hz as (_ & Hz & _). congruence.
Qed.
Lemma trimmed_unique s t t' : trimmed s t -> trimmed s t' -> t = t'.
Proof.
  assert (forall s t l r, runes l -> runes r -> no_space_prefix t -> t <> [] -> s = concat l ++ t ++ concat r -> trimmed s [] -> False) as Hnil.
  { intros s0 t0 l r Hl Hr Hp Hn -> (l' & r' & E & Hl' & Hr' & _). apply Hn.
    assert (t0 ++ concat r = []) as K.
    { apply (front_unique l (l' ++ r')); [done|by apply Forall_app|by apply no_prefix_more|apply no_prefix_nil|]. rewrite E, concat_app. cbn. by rewrite app_nil_r. }
    by apply app_nil in K as [-> _]. }
  intros H H'. destruct (decide (t = [])) as [->|Hn].
  { destruct (decide (t' = [])) as [->|Hn']; [done|]. destruct H' as (l & r & E & Hl & Hr & Hp & _). by destruct (Hnil s t' l r). }
  destruct (decide (t' = [])) as [->|Hn']. { destruct H as (l & r & E & Hl & Hr & Hp & _). by destruct (Hnil s t l r). }
  destruct H as (l & r & -> & Hl & Hr & Hp & Hs), H' as (l' & r' & E & Hl' & Hr' & Hp' & Hs').
  assert (t ++ concat r = t' ++ concat r') as K by (by apply (front_unique l l'); try apply no_prefix_more).
  by apply (back_unique r r').
Qed.
