(** Routing theorems for trees built from a list of routes. *)
From Verif Require Import Base GoStr Strconv Pattern Tree GoStrFacts TreeSpec ListFacts TreeFacts TreeMatch.

Section Top.
Context {H : Type}.
Variable re_ok : gostr -> bool.
Variable re_find : gostr -> gostr -> option (list gostr).
Implicit Types us : list (gostr * list H).

Lemma path_segs_nonempty path : path_segs path <> [].
Proof. apply split_byte_nonempty. Qed.

Lemma skip_empty_nonempty l : l <> [] -> skip_empty l <> [].
Proof. destruct l as [|[|c x] [|y [|z r]]]; done. Qed.
Lemma uri_segs_nonempty u : uri_segs u <> [].
Proof. apply skip_empty_nonempty, split_byte_nonempty. Qed.

(** *** Insertion succeeds exactly on well-formed routes *)
Lemma add_segs_ok segs : forall (n : node H) id hs,
  segs <> [] -> Forall (fun s => is_ok (analyzePattern re_ok s)) segs ->
  exists x, add_segs re_ok n segs id hs = Ok x.
Proof.
  induction segs as [|s rest IH]; intros n id hs Hne Hf; [done|].
  inversion Hf as [|? ? [p Hp] Hrest]; subst. cbn [add_segs]. destruct rest as [|s2 rest].
  - unfold addEndNode. destruct (find_split _ _) as [[[? ?] ?]|]; [eauto|].
    rewrite Hp. simpl. eauto.
  - destruct (find_split _ _) as [[[l1 x] l2]|].
    + destruct (IH x id hs) as ([[x' e] ts] & ->); [done|done|]. simpl. eauto.
    + rewrite Hp. cbn [rbind].
      destruct (IH (Node p [] []) id hs) as ([[x' e] ts] & ->); [done|done|]. simpl. eauto.
Qed.

(** the table built from us, with payloads numbered from i *)
Fixpoint payloads (i : nat) us (tbl : list (list pat)) : @tblp H :=
  match us, tbl with
  | (_, hs) :: us', r :: tbl' => (r, (i, hs)) :: payloads (S i) us' tbl'
  | _, _ => []
  end.

Lemma payloads_fst i us tbl : length us = length tbl -> (payloads i us tbl).*1 = tbl.
Proof.
  revert i tbl. induction us as [|[u hs] us IH]; intros i [|r tbl] Hl; try done. simpl in *.
  f_equal. apply IH. lia.
Qed.

Lemma tbl_ok_snoc t r pl : tbl_ok re_ok t -> Forall (pat_ok re_ok) r -> tbl_ok re_ok (t ++ [(r, pl)] : @tblp H).
Proof. intros Ht Hr. apply Forall_app. split; [done|]. by constructor. Qed.

Lemma route_ok segs r :
  Forall2 (fun s p => analyzePattern re_ok s = Ok p) segs r -> Forall (pat_ok re_ok) r.
Proof. induction 1 as [|s p segs r Hp Hr IH]; constructor; [by eapply analyze_ok|done]. Qed.

Lemma adds_from_rep us : forall n i t T,
  rep n t -> tbl_ok re_ok t -> adds_from re_ok n i us = Ok T ->
  exists tbl, routes_of re_ok us tbl /\ rep T (t ++ payloads i us tbl) /\
              tbl_ok re_ok (t ++ payloads i us tbl).
Proof.
  induction us as [|[u hs] us IH]; intros n i t T Hr Hok Ha.
  - inversion Ha; subst. exists []. rewrite app_nil_r. split_and!; [constructor|done|done].
  - cbn [adds_from] in Ha. apply rbind_ok in Ha as ([[n' e] ts] & Hadd & Ha).
    rewrite add_eq in Hadd. apply rbind_ok in Hadd as ([[n2 e2] ts2] & Hadd & Heq).
    inversion Heq; subst.
    apply (add_segs_rep re_ok re_find _ n t) in Hadd as (r & Hf & Hp & Hr' & Hts & Hff); [|done|done].
    assert (Hok' : tbl_ok re_ok (t ++ [(r, (i, hs))])).
    { apply tbl_ok_snoc; [done|]. by eapply route_ok. }
    destruct (IH _ _ _ _ Hr' Hok' Ha) as (tbl & Hro & Hrep & Hokk).
    exists (r :: tbl). cbn [payloads]. rewrite <- app_assoc in Hrep, Hokk.
    split_and!; [by constructor|done|done].
Qed.

Lemma adds_rep us T :
  adds re_ok us = Ok T ->
  exists tbl, routes_of re_ok us tbl /\ rep T (payloads 0 us tbl).
Proof.
  intros Ha. destruct (adds_from_rep us newTree 0 [] T) as (tbl & Hro & Hrep & _).
  - apply rep_empty.
  - constructor.
  - done.
  - exists tbl. done.
Qed.

Lemma routes_of_fun us tbl tbl' : routes_of re_ok us tbl -> routes_of re_ok us tbl' -> tbl = tbl'.
Proof.
  unfold routes_of, uri_route. intros H1. revert tbl'.
  induction H1 as [|u r us tbl Hu H1 IH]; intros tbl' H2; inversion H2 as [|? r' ? tbl'' Hu' H2']; subst; [done|].
  f_equal; [|by apply IH].
  clear -Hu Hu'. revert r' Hu'. induction Hu as [|s p segs r Hp Hr IH]; intros r' Hu';
    inversion Hu'; subst; [done|]. f_equal; [congruence|by apply IH].
Qed.

Lemma adds_ok us tbl : routes_of re_ok us tbl -> is_ok (adds re_ok us).
Proof.
  unfold adds. generalize (newTree (H := H)) 0. intros n i Hro. revert n i.
  induction Hro as [|[u hs] r us tbl Hu Hro IH]; intros n i; [by exists n|].
  cbn [adds_from]. rewrite add_eq.
  destruct (add_segs_ok (uri_segs u) n i hs) as ([[n' e] ts] & ->).
  - apply uri_segs_nonempty.
  - unfold uri_route in Hu. simpl in Hu. clear -Hu. induction Hu; constructor; [by eexists|done].
  - cbn [rbind]. apply IH.
Qed.


Lemma payloads_find us tbl i r id hs :
  length us = length tbl ->
  find_first r (payloads i us tbl) = Some (id, hs) ->
  exists j u, id = i + j /\ us !! j = Some (u, hs) /\ tbl !! j = Some r /\
              forall j', j' < j -> tbl !! j' <> Some r.
Proof.
  revert i tbl. induction us as [|[u hs0] us IH]; intros i [|r' tbl] Hl Hf; try done.
  unfold find_first in Hf. cbn [payloads] in Hf. rewrite omap_cons in Hf. cbn [fst snd] in Hf.
  destruct (decide (r' = r)) as [->|Hne].
  - inversion Hf; subst. exists 0, u. split_and!; [lia|done|done|]. intros j' Hj'. lia.
  - fold (find_first r (payloads (S i) us tbl)) in Hf.
    destruct (IH (S i) tbl) as (j & u' & -> & H1 & H2 & H3); [simpl in Hl; lia|done|].
    exists (S j), u'. split_and!; [lia|done|done|]. intros [|j'] Hj'; [simpl; congruence|].
    simpl. apply H3. lia.
Qed.

(** *** The whole result of a lookup *)

(** left over by a dead end: TreeSpec.left_behind *)
Lemma lb_left_behind (t : @tblp H) ss pre r k v :
  lb re_find t ss pre k v -> ~ pre `prefix_of` r -> left_behind re_find t.*1 ss r k v.
Proof.
  intros (c & q & x & s & gs & -> & H1 & H2 & H3 & H4 & H5 & H6 & H7) Hn.
  exists c, q, x, s, gs. split_and!; try done.
Qed.

Definition lookup_result us tbl (path : gostr) (o : option (enode H)) (ps : option Params) : Prop :=
  exists m, ps = Some m /\
  match o with
  | None =>
      (forall r, r ∈ tbl -> ~ route_accepts re_find r (path_segs path)) /\
      (forall k v, m !! k = Some v -> left_behind re_find tbl (path_segs path) [] k v)
  | Some e =>
      exists j u r,
        us !! j = Some (u, e_handlers e) /\ e_id e = j /\ tbl !! j = Some r /\
        (forall j', j' < j -> tbl !! j' <> Some r) /\
        route_accepts re_find r (path_segs path) /\
        (forall r', r' ∈ tbl -> route_accepts re_find r' (path_segs path) ->
           r' = r \/ beats tbl (length (path_segs path)) r r') /\
        (forall k, m !! k = (list_to_map (route_binds re_find 0 r (path_segs path)) : Params) !! k \/
           exists v, m !! k = Some v /\ left_behind re_find tbl (path_segs path) r k v)
  end.

Lemma lookup_ok us T tbl path o ps :
  adds re_ok us = Ok T -> routes_of re_ok us tbl ->
  Match re_find (Some T) path = (o, ps) ->
  lookup_result us tbl path o ps.
Proof.
  intros Ha Hro Hm. apply adds_rep in Ha as (tbl' & Hro' & Hrep).
  rewrite (routes_of_fun _ _ _ Hro' Hro) in *. clear tbl' Hro'.
  assert (Hl : length us = length tbl) by (by eapply Forall2_length).
  rewrite Match_eq in Hm. destruct (match_segs _ _ _ _ _) as [o' m] eqn:Em.
  inversion Hm; subst. exists m. split; [done|].
  apply (match_segs_good re_ok re_find _ T (payloads 0 us tbl)) in Em; [|done|apply path_segs_nonempty].
  unfold good in Em. rewrite payloads_fst in Em by done. destruct o as [e|].
  - destruct Em as (r & Hff & Hacc & Hb & Hd).
    apply payloads_find in Hff as (j & u & Hid & Hu & Hr & Hmin); [|done].
    exists j, u, r. split_and!; try done.
    intros k. destruct (Hd k) as [Hk|(v & pre & Hk & Hlb & Hn)].
    + left. by rewrite (right_id_L ∅ _) in Hk.
    + right. exists v. split; [done|]. pose proof (lb_left_behind _ _ _ _ _ _ Hlb Hn) as Hlb'.
      by rewrite payloads_fst in Hlb'.
  - destruct Em as [Hno Hd]. split; [done|]. intros k v Hk.
    destruct (Hd k) as [Hk'|(v' & pre & Hk' & Hlb & _)].
    + rewrite (left_id_L ∅ _) in Hk'. rewrite lookup_empty in Hk'. congruence.
    + rewrite Hk in Hk'. inversion Hk'; subst v'.
      assert (Hn : ~ pre `prefix_of` []).
      { destruct Hlb as (c & q & x & s & gs & -> & _). intros (u & Hu). by destruct c. }
      pose proof (lb_left_behind _ _ _ _ _ _ Hlb Hn) as Hlb'. by rewrite payloads_fst in Hlb'.
Qed.


(** *** Same-kind order *)
End Top.
