(** Parameters: the bindings of a route read position by position. *)
From Verif Require Import Base GoStr Strconv Pattern Tree GoStrFacts TreeSpec ListFacts TreeFacts TreeMatch TreeTop.

Section Params.
Variable re_find : gostr -> gostr -> option (list gostr).

Lemma bound_by_cons g p r ss k v :
  bound_by re_find g (p :: r) ss k v <->
  own_bind re_find g p (bool_decide (r = [])) ss k v \/
  bound_by re_find (match p_typ p with PMatchAll => S g | _ => g end) r (tail ss) k v.
Proof.
  unfold bound_by. split.
  - intros (c & q & t & Heq & Hb). destruct c as [|q' c]; inversion Heq; subst.
    + left. rewrite drop_0, Nat.add_0_r in Hb. done.
    + right. exists c, q, t. split; [done|]. simpl in Hb.
      destruct ss as [|s ss]; simpl in *.
      * rewrite !drop_nil in *. destruct (p_typ q') eqn:E; simpl in Hb; rewrite ?Nat.add_succ_r in Hb; done.
      * destruct (p_typ q') eqn:E; simpl in Hb; rewrite ?Nat.add_succ_r in Hb; done.
  - intros [Hb|(c & q & t & -> & Hb)].
    + exists [], p, r. rewrite drop_0, Nat.add_0_r. done.
    + exists (p :: c), q, t. split; [done|]. simpl.
      destruct ss as [|s ss]; simpl in *.
      * rewrite !drop_nil in *. destruct (p_typ p) eqn:E; rewrite ?Nat.add_succ_r; done.
      * destruct (p_typ p) eqn:E; rewrite ?Nat.add_succ_r; done.
Qed.

Lemma bound_by_nil g ss k v : ~ bound_by re_find g [] ss k v.
Proof. intros (c & p & t & Heq & _). by destruct c. Qed.

Lemma regexp_binds_elem p s groups k v :
  captures re_find p s groups ->
  (k, v) ∈ regexp_binds re_find p s <-> (k, v) ∈ zip (p_wild p) groups.
Proof.
  intros (reg & w & Hr & Hf & Hl). unfold regexp_binds. rewrite Hr, Hf. apply elem_of_reverse.
Qed.
Lemma captures_fun p s g1 g2 : captures re_find p s g1 -> captures re_find p s g2 -> g1 = g2.
Proof. intros (r1 & w1 & H1 & H2 & _) (r2 & w2 & H3 & H4 & _). congruence. Qed.
Lemma regexp_binds_own p s ss g b k v :
  p_typ p = PRegexp -> seg_accepts re_find p s ->
  (k, v) ∈ regexp_binds re_find p s <-> own_bind re_find g p b (s :: ss) k v.
Proof.
  intros Ht Ha. unfold seg_accepts, own_bind in *. rewrite Ht in *. destruct Ha as (gr & Hc).
  rewrite (regexp_binds_elem p s gr) by done. split.
  - intros Hin. by exists s, gr.
  - intros (s' & gr' & Hs & Hc' & Hin). simpl in Hs. inversion Hs; subst s'.
    by rewrite (captures_fun _ _ _ _ Hc Hc').
Qed.
Lemma holder_binds_own p s ss g b k v :
  p_typ p = PHolder -> (k, v) ∈ holder_binds p s <-> own_bind re_find g p b (s :: ss) k v.
Proof.
  intros Ht. unfold own_bind, holder_binds. rewrite Ht. simpl.
  destruct (decide (p_parsed p = L "_")) as [E|E].
  - split; [intros Hn; by apply elem_of_nil in Hn|]. by intros [? _].
  - rewrite elem_of_list_singleton. split.
    + intros Hp. inversion Hp; subst. done.
    + intros (_ & -> & Hv). by inversion Hv.
Qed.
Lemma glob_binds_own p ss g k v :
  p_typ p = PMatchAll -> (k, v) ∈ glob_binds p g (join (L "/") ss) <-> own_bind re_find g p true ss k v.
Proof.
  intros Ht. unfold own_bind, glob_binds. rewrite Ht.
  destruct (decide (p_parsed p = [])) as [E|E].
  - rewrite elem_of_list_singleton. split; [intros Hp; by inversion Hp|]. by intros (-> & ->).
  - destruct (decide (p_parsed p = L "_")) as [E'|E'].
    + split; [intros Hn; by apply elem_of_nil in Hn|]. by intros [? _].
    + rewrite elem_of_list_singleton. split; [intros Hp; inversion Hp; done|]. by intros (_ & -> & ->).
Qed.
Lemma glob_sub_own p s ss g k v :
  p_typ p = PMatchAll ->
  (k, v) ∈ (if decide (p_parsed p = []) then [(star_name g, s)] else glob_binds p g (join (L "/") (s :: ss)))
  <-> own_bind re_find g p false (s :: ss) k v.
Proof.
  intros Ht. unfold own_bind, glob_binds. rewrite Ht.
  destruct (decide (p_parsed p = [])) as [E|E].
  - rewrite elem_of_list_singleton. simpl. split; [intros Hp; by inversion Hp|].
    intros (-> & Hv). by inversion Hv.
  - destruct (decide (p_parsed p = L "_")) as [E'|E'].
    + split; [intros Hn; by apply elem_of_nil in Hn|]. by intros [? _].
    + rewrite elem_of_list_singleton. split; [intros Hp; inversion Hp; done|]. by intros (_ & -> & ->).
Qed.

Lemma route_binds_cons g p r s ss :
  r <> [] ->
  route_binds re_find g (p :: r) (s :: ss) =
      match p_typ p with
      | PStatic => route_binds re_find g r ss
      | PRegexp => route_binds re_find g r ss ++ regexp_binds re_find p s
      | PHolder => holder_binds p s ++ route_binds re_find g r ss
      | PMatchAll =>
          (if decide (p_parsed p = []) then [(star_name g, s)]
           else glob_binds p g (join (L "/") (s :: ss))) ++ route_binds re_find (S g) r ss
      end.
Proof. destruct r; done. Qed.

Lemma route_binds_bound r ss :
  route_accepts re_find r ss ->
  forall g k v, (k, v) ∈ route_binds re_find g r ss <-> bound_by re_find g r ss k v.
Proof.
  induction 1 as [p s Ha|p s ss Ht Hne|p r s ss Ha Hr IH]; intros g k v.
  - rewrite bound_by_cons. transitivity (own_bind re_find g p true [s] k v).
    2: { split; [by left|]. intros [?|Hb]; [done|]. by apply bound_by_nil in Hb. }
    simpl. destruct (p_typ p) eqn:Et.
    + unfold own_bind. rewrite Et. split; [intros Hn; by apply elem_of_nil in Hn|done].
    + by apply regexp_binds_own.
    + by apply holder_binds_own.
    + rewrite <- (glob_binds_own p [s]) by done. done.
  - rewrite bound_by_cons. transitivity (own_bind re_find g p true (s :: ss) k v).
    2: { split; [by left|]. intros [?|Hb]; [done|]. by apply bound_by_nil in Hb. }
    cbn [route_binds]. rewrite Ht. by apply glob_binds_own.
  - assert (r <> []) as Hne by (intros ->; by apply route_accepts_nil_l in Hr).
    rewrite route_binds_cons by done. rewrite bound_by_cons. simpl tail.
    rewrite bool_decide_eq_false_2 by done.
    destruct (p_typ p) eqn:Et.
    + rewrite IH. unfold own_bind. rewrite Et. tauto.
    + rewrite elem_of_app, IH, (regexp_binds_own p s ss g false) by done. tauto.
    + rewrite elem_of_app, IH, (holder_binds_own p s ss g false) by done. done.
    + rewrite elem_of_app, IH, (glob_sub_own p s ss g) by done. done.
Qed.

Lemma route_binds_names r ss :
  route_accepts re_find r ss -> forall g, (route_binds re_find g r ss).*1 ≡ₚ route_names g r.
Proof.
  assert (Hreg : forall p s, p_typ p = PRegexp -> seg_accepts re_find p s ->
            (regexp_binds re_find p s).*1 ≡ₚ p_wild p).
  { intros p s Ht Ha. unfold seg_accepts in Ha. rewrite Ht in Ha.
    destruct Ha as (gr & reg & w & Hr & Hf & Hl). unfold regexp_binds. rewrite Hr, Hf.
    rewrite fmap_reverse, reverse_Permutation. rewrite fst_zip by lia. done. }
  assert (Hhol : forall p s, (holder_binds p s).*1 = (if decide (p_parsed p = L "_") then [] else [p_parsed p])).
  { intros p s. unfold holder_binds. by destruct (decide _). }
  assert (Hglob : forall p g v, (glob_binds p g v).*1 =
     (if decide (p_parsed p = []) then [star_name g]
           else if decide (p_parsed p = L "_") then [] else [p_parsed p])).
  { intros p g v. unfold glob_binds. destruct (decide _); [done|]. by destruct (decide _). }
  induction 1 as [p s Ha|p s ss Ht Hne|p r s ss Ha Hr IH]; intros g.
  - simpl. destruct (p_typ p) eqn:Et; rewrite ?app_nil_r; [done|by apply Hreg|by rewrite Hhol|by rewrite Hglob].
  - cbn [route_binds route_names]. rewrite Ht, app_nil_r. by rewrite Hglob.
  - assert (r <> []) as Hne by (intros ->; by apply route_accepts_nil_l in Hr).
    rewrite route_binds_cons by done. cbn [route_names].
    destruct (p_typ p) eqn:Et.
    + apply IH.
    + rewrite fmap_app, IH, Hreg by done. apply Permutation_app_comm.
    + by rewrite fmap_app, IH, Hhol.
    + rewrite fmap_app, IH. destruct (decide (p_parsed p = [])) as [E|E]; [done|].
      rewrite Hglob. by rewrite decide_False.
Qed.

(** distinct names: each is bound exactly as its own segment says *)
Lemma binds_lookup r ss g k v :
  route_accepts re_find r ss -> NoDup (route_names g r) ->
  (list_to_map (route_binds re_find g r ss) : Params) !! k = Some v <-> bound_by re_find g r ss k v.
Proof.
  intros Ha Hn. rewrite <- route_binds_bound by done. symmetry. apply elem_of_list_to_map.
  by rewrite route_binds_names.
Qed.
Lemma binds_dom r ss g k :
  route_accepts re_find r ss ->
  is_Some ((list_to_map (route_binds re_find g r ss) : Params) !! k) <-> k ∈ route_names g r.
Proof.
  intros Ha. rewrite <- (route_binds_names r ss Ha g). split.
  - intros [v Hv]. apply elem_of_list_to_map_2 in Hv. apply elem_of_list_fmap. by exists (k, v).
  - intros Hk. destruct ((list_to_map (route_binds re_find g r ss) : Params) !! k) eqn:E; [eauto|].
    apply not_elem_of_list_to_map in E. done.
Qed.

Lemma no_left_behind tbl ss win k v : no_inner_regexp tbl -> ~ left_behind re_find tbl ss win k v.
Proof.
  intros Hn (c & q & t & s & gs & Hin & Ht & Hq & _). by eapply (Hn _ c q t).
Qed.
End Params.
