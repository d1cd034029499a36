(** Matching in a represented tree against the specification of TreeSpec.v. *)
From Verif Require Import Base GoStr Strconv Pattern Tree GoStrFacts TreeSpec ListFacts TreeFacts.

Section Match.
Context {H : Type}.
Variable re_ok : gostr -> bool.
Variable re_find : gostr -> gostr -> option (list gostr).
Local Notation node := (node H).
Local Notation enode := (enode H).
Local Notation tblp := (@tblp H).
Local Notation accepts := (route_accepts re_find).
Local Notation sacc := (seg_accepts re_find).

Lemma regexp_groups_spec p s gs :
  regexp_groups re_find p s = Some gs <-> captures re_find p s gs.
Proof.
  unfold regexp_groups, captures. split.
  - intros Hr. destruct (p_reg p) as [reg|]; [|done].
    destruct (re_find reg s) as [[|w groups]|] eqn:Ef; [done| |done].
    destruct (length groups =? length (p_wild p)) eqn:E; [|done]. inversion Hr; subst.
    apply Nat.eqb_eq in E. by exists reg, w.
  - intros (reg & w & -> & -> & Hl). by rewrite (proj2 (Nat.eqb_eq _ _) Hl).
Qed.

Lemma route_accepts_nil_r r : ~ accepts r [].
Proof. inversion 1. Qed.
Lemma route_accepts_nil_l ss : ~ accepts [] ss.
Proof. inversion 1. Qed.

Lemma accepts_one r s : accepts r [s] -> exists p, r = [p] /\ sacc p s.
Proof.
  inversion 1 as [p s' Ha|p s' ss Ht Hne|p r' s' ss Ha Hr]; subst.
  - by exists p.
  - done.
  - by apply route_accepts_nil_r in Hr.
Qed.
Lemma accepts_more r s ss : ss <> [] -> accepts r (s :: ss) ->
  (exists p, r = [p] /\ p_typ p = PMatchAll) \/
  (exists p r', r = p :: r' /\ r' <> [] /\ sacc p s /\ accepts r' ss).
Proof.
  intros Hne. inversion 1 as [p s' Ha|p s' ss' Ht Hne'|p r' s' ss' Ha Hr]; subst.
  - done.
  - left. by exists p.
  - right. exists p, r'. split_and!; try done. intros ->. by apply route_accepts_nil_l in Hr.
Qed.

(** ** Parameters *)

Lemma set_all_map ns vs ps :
  set_all ns vs ps = list_to_map (reverse (zip ns vs)) ∪ ps.
Proof.
  revert vs ps. induction ns as [|n ns IH]; intros vs ps; simpl.
  { by rewrite (left_id_L ∅ _). }
  destruct vs as [|v vs]; simpl; [by rewrite (left_id_L ∅ _)|].
  rewrite IH, reverse_cons, list_to_map_app. simpl.
  rewrite <- (assoc_L (∪)). f_equal. rewrite insert_union_singleton_l.
  by rewrite insert_empty.
Qed.

Lemma regexp_binds_map p s gs ps :
  captures re_find p s gs ->
  set_all (p_wild p) gs ps = list_to_map (regexp_binds re_find p s) ∪ ps.
Proof.
  intros (reg & w & Hr & Hf & Hl). rewrite set_all_map. unfold regexp_binds. by rewrite Hr, Hf.
Qed.

Lemma ltm1 (k v : gostr) (ps : Params) : list_to_map [(k, v)] ∪ ps = <[k:=v]> ps.
Proof. simpl. rewrite (insert_union_singleton_l ps). by rewrite insert_empty. Qed.
Lemma ltm0 (ps : Params) : list_to_map [] ∪ ps = ps.
Proof. simpl. by rewrite (left_id_L ∅ _). Qed.

Lemma bind_holder_map p v ps : bind_holder p v ps = list_to_map (holder_binds p v) ∪ ps.
Proof.
  unfold bind_holder, holder_binds. destruct (seqb_spec (p_parsed p) (L "_")) as [E|E]; cbn [negb].
  - rewrite decide_True by done. by rewrite ltm0.
  - rewrite decide_False by done. by rewrite ltm1.
Qed.

Lemma bind_glob_end_map p g v ps : bind_glob_end p g v ps = list_to_map (glob_binds p g v) ∪ ps.
Proof.
  unfold bind_glob_end, glob_binds. destruct (seqb_spec (p_parsed p) []) as [E|E]; cbn [negb].
  - rewrite decide_True by done. by rewrite ltm1.
  - rewrite decide_False by done. destruct (seqb_spec (p_parsed p) (L "_")) as [E'|E']; cbn [negb].
    + rewrite decide_True by done. by rewrite ltm0.
    + rewrite decide_False by done. by rewrite ltm1.
Qed.

Lemma bind_glob_sub_map p g s rest ps :
  bind_glob_sub p g s rest ps =
  list_to_map (if decide (p_parsed p = []) then [(star_name g, s)]
               else glob_binds p g (s ++ L "/" ++ rest)) ∪ ps.
Proof.
  unfold bind_glob_sub, glob_binds. destruct (seqb_spec (p_parsed p) []) as [E|E]; cbn [negb].
  - rewrite decide_True by done. by rewrite ltm1.
  - rewrite !(decide_False (P := p_parsed p = [])) by done.
    destruct (seqb_spec (p_parsed p) (L "_")) as [E'|E']; cbn [negb].
    + rewrite decide_True by done. by rewrite ltm0.
    + rewrite decide_False by done. by rewrite ltm1.
Qed.

(** a binding left behind through the beginning [pre] of some route *)
Definition lb (t : tblp) (ss : list gostr) (pre : list pat) (k v : gostr) : Prop :=
  exists c q x s gs,
    pre = c ++ [q] /\ c ++ q :: x ∈ t.*1 /\ x <> [] /\ p_typ q = PRegexp /\
    ss !! length c = Some s /\ Forall2 sacc c (take (length c) ss) /\
    captures re_find q s gs /\ (k, v) ∈ zip (p_wild q) gs.

Definition drift (t : tblp) (ss : list gostr) (B : Params) (P : list pat -> Prop)
    (ps ps' : Params) : Prop :=
  forall k, ps' !! k = (B ∪ ps) !! k \/
            exists v pre, ps' !! k = Some v /\ lb t ss pre k v /\ P pre.

Lemma drift_refl t ss P ps : drift t ss ∅ P ps ps.
Proof. intros k. left. by rewrite (left_id_L ∅ _). Qed.

Lemma drift_eq t ss B P ps : drift t ss B P ps (B ∪ ps).
Proof. intros k. by left. Qed.

Lemma drift_trans t ss B P ps ps1 ps2 :
  drift t ss ∅ P ps ps1 -> drift t ss B P ps1 ps2 -> drift t ss B P ps ps2.
Proof.
  intros H1 H2 k. destruct (H2 k) as [E2|?]; [|by right].
  destruct (B !! k) as [b|] eqn:EB.
  - left. rewrite E2. by rewrite !(lookup_union_Some_l _ _ _ _ EB).
  - rewrite lookup_union_r in E2 by done. rewrite (lookup_union_r B ps) by done.
    destruct (H1 k) as [E1|(v & pre & E1 & Hlb & HP)].
    + left. rewrite (left_id_L ∅ _) in E1. congruence.
    + right. exists v, pre. split_and!; [congruence|done|done].
Qed.

Lemma drift_mono t ss B (P Q : list pat -> Prop) ps ps' :
  (forall pre k v, lb t ss pre k v -> P pre -> Q pre) -> drift t ss B P ps ps' -> drift t ss B Q ps ps'.
Proof.
  intros HPQ Hd k. destruct (Hd k) as [?|(v & pre & E & Hlb & HP)]; [by left|right].
  exists v, pre. split_and!; [done|done|by eapply HPQ].
Qed.

Lemma lb_lift p s t rest pre k v :
  sacc p s -> lb (tails p t) rest pre k v -> lb t (s :: rest) (p :: pre) k v.
Proof.
  intros Hs (c & q & x & s' & gs & -> & Hin & Hx & Hq & Hl & Hf & Hc & Hz).
  exists (p :: c), q, x, s', gs. split_and!; try done.
  - apply elem_of_list_fmap in Hin as ([r pl] & Hr & Hin). simpl in Hr. subst r.
    apply elem_tails in Hin as [Hin _]. apply elem_of_list_fmap. by exists (p :: c ++ q :: x, pl).
  - simpl. by constructor.
Qed.

Lemma drift_lift p s t rest B (P Q : list pat -> Prop) ps ps' :
  sacc p s -> (forall pre, P pre -> Q (p :: pre)) ->
  drift (tails p t) rest B P ps ps' -> drift t (s :: rest) B Q ps ps'.
Proof.
  intros Hs HPQ Hd k. destruct (Hd k) as [?|(v & pre & E & Hlb & HP)]; [by left|right].
  exists v, (p :: pre). split_and!; [done|by apply lb_lift|by apply HPQ].
Qed.

(** ** Priorities *)

Lemma opened_lift p (t : tblp) a b :
  opened_before (tails p t).*1 a b -> opened_before t.*1 (p :: a) (p :: b).
Proof.
  intros (l1 & r & l2 & Ht & (x & u & Hr) & Hn).
  apply fmap_app_inv in Ht as (t1 & t2 & E1 & E2 & Ht).
  destruct t2 as [|[r' pl] t2]; [done|]. inversion E2; subst. simpl in *.
  unfold tails in Ht. apply omap_split in Ht as (y1 & [r0 pl0] & y2 & -> & Ho & He & _).
  simpl in He. destruct r0 as [|q [|q' r0]]; [done|done|]. case_decide; [|done].
  inversion He; subst. exists y1.*1, (p :: a ++ x :: u), y2.*1. split_and!.
  - rewrite fmap_app, fmap_cons. cbn [fst]. do 2 f_equal. congruence.
  - exists x, u. done.
  - intros r' Hr' (x' & u' & ->). apply elem_of_list_fmap in Hr' as ([r'' pl''] & Heq & Hin).
    simpl in Heq. subst r''. apply (Hn (b ++ x' :: u')); [|by exists x', u'].
    apply elem_of_list_fmap. exists (b ++ x' :: u', pl''). split; [done|].
    apply (elem_tails p y1). split; [done|]. by destruct b.
Qed.

Lemma listed_lift p (t : tblp) a b :
  b <> [] -> listed_before (tails p t).*1 a b -> listed_before t.*1 (p :: a) (p :: b).
Proof.
  intros Hb (l1 & l2 & Ht & Hn).
  apply fmap_app_inv in Ht as (t1 & t2 & E1 & E2 & Ht).
  destruct t2 as [|[r' pl] t2]; [done|]. inversion E2; subst. simpl in *.
  unfold tails in Ht. apply omap_split in Ht as (y1 & [r0 pl0] & y2 & -> & Ho & He & _).
  simpl in He. destruct r0 as [|q [|q' r0]]; [done|done|]. case_decide; [|done].
  inversion He; subst. exists y1.*1, y2.*1. split.
  - rewrite fmap_app, fmap_cons. cbn [fst]. do 2 f_equal; congruence.
  - intros Hin. apply elem_of_list_fmap in Hin as ([r'' pl''] & Heq & Hin). simpl in Heq. subst r''.
    apply Hn. apply elem_of_list_fmap. exists (b, pl''). split; [done|].
    apply (elem_tails p y1). done.
Qed.

Lemma beats_lift p (t : tblp) n r r' :
  beats (tails p t).*1 n r r' -> beats t.*1 (S n) (p :: r) (p :: r').
Proof.
  inversion 1 as [c p1 t1 p2 t2 H1 H2 H3|c p1 t1 p2 t2 H1 H2 H3 H4 H5|c p1 p2 H1 H2
                 |c p1 p2 H1 H2 H3 H4|c p1 p2 H1 H2 H3 H4 H5|c p1 t1 p2 H1 H2 H3]; subst.
  - by apply (beats_inner_kind _ _ (p :: c)).
  - apply (beats_inner_order _ _ (p :: c)); try done. by apply opened_lift.
  - apply (beats_last_kind _ _ (p :: c)); simpl; [lia|done].
  - apply (beats_last_order _ _ (p :: c)); simpl; [lia|done|done|].
    apply listed_lift; [by destruct c|done].
  - apply (beats_catch_all _ _ (p :: c)); simpl; [lia|done|done|done|].
    apply listed_lift; [by destruct c|done].
  - apply (beats_longer _ _ (p :: c)); simpl; [lia|done|done].
Qed.

Lemma before_map {A B} (f : A -> B) l u v :
  before (map f l) u v -> exists x y, u = f x /\ v = f y /\ before l x y.
Proof.
  induction l as [|a l IH]; simpl; intros Hb; [by apply before_nil in Hb|].
  apply before_cons in Hb as [[-> Hv]|Hb].
  - apply elem_of_list_fmap in Hv as (y & -> & Hy). exists a, y. split_and!; [done..|].
    apply before_cons. by left.
  - destruct (IH Hb) as (x & y & -> & -> & Hxy). exists x, y. split_and!; [done..|].
    apply before_cons. by right.
Qed.

(** leaf order *)
Lemma ends_before (n : node) t e e' :
  rep n t -> before (n_ends n) e e' ->
  tlt e_typ e e' \/
  (e_typ e = e_typ e' /\ e_pat e <> e_pat e' /\ listed_before t.*1 [e_pat e] [e_pat e']).
Proof.
  intros Hr Hb. inversion Hr as [p subs ends t' Hs He Hrec]; subst. simpl in Hb.
  apply order_before in Hb as [?|[Heq Hb]]; [by left|right]. split; [done|].
  apply before_map in Hb as ([p1 [i1 h1]] & [p2 [i2 h2]] & -> & -> & Hb). simpl.
  apply firsts_before in Hb as (Hne & l1 & l2 & Hl & Hn). simpl in *. split; [done|].
  unfold singles in Hl. apply omap_split in Hl as (y1 & [r0 pl0] & y2 & -> & Ho & Hx & _).
  simpl in Hx. destruct r0 as [|q [|q' r0]]; [done| |done]. inversion Hx; subst.
  exists y1.*1, y2.*1. split; [by rewrite fmap_app|].
  intros Hin. apply elem_of_list_fmap in Hin as ([r'' pl''] & Heq' & Hin). simpl in Heq'. subst r''.
  apply Hn. apply elem_of_list_fmap. exists (p2, pl''). split; [done|].
  by apply (elem_singles p2 pl'' y1).
Qed.

(** inner node order *)
Lemma subs_before (n : node) t p p' :
  rep n t -> before (map n_pat (n_subs n)) p p' ->
  kind_lt p p' \/ (p_typ p = p_typ p' /\ p <> p' /\ opened_before t.*1 [p] [p']).
Proof.
  intros Hr Hb. inversion Hr as [p0 subs ends t' Hs He Hrec]; subst. simpl in Hb. rewrite Hs in Hb.
  apply order_before in Hb as [?|[Heq Hb]]; [by left|right]. split; [done|].
  apply firsts_before in Hb as (Hne & l1 & l2 & Hl & Hn). unfold idp in Hne. split; [done|].
  rewrite map_idp in Hn. unfold idp in Hn.
  unfold heads in Hl. apply omap_split in Hl as (y1 & [r0 pl0] & y2 & -> & Ho & Hx & _).
  simpl in Hx. destruct r0 as [|q [|q' r0]]; [done|done|]. inversion Hx; subst.
  exists y1.*1, (p :: q' :: r0), y2.*1. split_and!; [by rewrite fmap_app|by exists q', r0|].
  intros r' Hr' (x & u & ->). apply elem_of_list_fmap in Hr' as ([r'' pl''] & Heq' & Hin).
  simpl in Heq'. subst r''. apply Hn. apply (elem_heads p' y1). eauto.
Qed.

(** ** What a correct result is *)
Definition good (t : tblp) (segs : list gostr) (g : nat) (ps : Params)
    (o : option enode) (ps' : Params) : Prop :=
  match o with
  | None =>
      (forall r, r ∈ t.*1 -> ~ accepts r segs) /\ drift t segs ∅ (fun _ => True) ps ps'
  | Some e =>
      exists r, find_first r t = Some (e_id e, e_handlers e) /\ accepts r segs /\
        (forall r', r' ∈ t.*1 -> accepts r' segs -> r' = r \/ beats t.*1 (length segs) r r') /\
        drift t segs (list_to_map (route_binds re_find g r segs))
              (fun pre => ~ pre `prefix_of` r) ps ps'
  end.

Lemma route_in_single p (t : tblp) : [p] ∈ t.*1 <-> p ∈ map fst (singles t).
Proof.
  rewrite !elem_of_list_fmap. split.
  - intros ([r pl] & Hr & Hin). simpl in Hr. subst r. exists (p, pl). split; [done|].
    by apply elem_singles.
  - intros ([q pl] & Hr & Hin). simpl in Hr. subst q. exists ([p], pl). split; [done|].
    by apply elem_singles in Hin.
Qed.

Lemma route_end (n : node) t p : rep n t -> [p] ∈ t.*1 -> exists e, e ∈ n_ends n /\ e_pat e = p.
Proof.
  intros Hr Hin. apply route_in_single in Hin. rewrite <- (firsts_keys fst) in Hin.
  apply elem_of_list_fmap in Hin as ([q [i hs]] & Hq & Hin). simpl in Hq. subst q.
  exists (mkEnd p i hs). split; [|done]. by apply (rep_ends n t).
Qed.

Lemma route_sub (n : node) t p r : rep n t -> p :: r ∈ t.*1 -> r <> [] -> p ∈ map n_pat (n_subs n).
Proof.
  intros Hr Hin Hne. apply (rep_subs n t p Hr). apply elem_heads.
  apply elem_of_list_fmap in Hin as ([q pl] & Hq & Hin). simpl in Hq. subst q.
  destruct r; [done|]. eauto.
Qed.

Lemma route_tails (t : tblp) p r : p :: r ∈ t.*1 -> r <> [] -> r ∈ (tails p t).*1.
Proof.
  intros Hin Hne. apply elem_of_list_fmap in Hin as ([q pl] & Hq & Hin). simpl in Hq. subst q.
  apply elem_of_list_fmap. exists (r, pl). split; [done|]. by apply elem_tails.
Qed.

Lemma sacc_static p s : p_typ p = PStatic -> seqb (p_raw p) s = true <-> sacc p s.
Proof. intros Ht. unfold seg_accepts. rewrite Ht, seqb_true. split; congruence. Qed.

(** one segment left *)
Lemma matchEndNode_cases (ends : list enode) g s ps o ps' :
  matchEndNode re_find ends g s ps = (o, ps') ->
  match o with
  | Some e => exists l1 l2, ends = l1 ++ e :: l2 /\ Forall (fun x : enode => ~ sacc (e_pat x) s) l1 /\
                 sacc (e_pat e) s /\
                 ps' = list_to_map (route_binds re_find g [e_pat e] [s]) ∪ ps
  | None => Forall (fun x : enode => ~ sacc (e_pat x) s) ends /\ ps' = ps
  end.
Proof.
  induction ends as [|e ends IH]; simpl; intros Hm; [inversion Hm; subst; done|].
  assert (forall (Hno : ~ sacc (e_pat e) s),
    matchEndNode re_find ends g s ps = (o, ps') ->
    match o with
    | Some e' => exists l1 l2, e :: ends = l1 ++ e' :: l2 /\
                 Forall (fun x : enode => ~ sacc (e_pat x) s) l1 /\
                 sacc (e_pat e') s /\
                 ps' = list_to_map (route_binds re_find g [e_pat e'] [s]) ∪ ps
    | None => Forall (fun x : enode => ~ sacc (e_pat x) s) (e :: ends) /\ ps' = ps
    end) as Hskip.
  { intros Hno Hm'. specialize (IH Hm'). destruct o as [e'|].
    - destruct IH as (l1 & l2 & -> & Hf & Ha & ->). exists (e :: l1), l2.
      split_and!; [done|by constructor|done|done].
    - destruct IH as [Hf ->]. split; [by constructor|done]. }
  unfold seg_accepts in *. simpl. destruct (p_typ (e_pat e)) eqn:Et.
  - destruct (seqb_spec (p_raw (e_pat e)) s) as [Heq|Hne].
    + inversion Hm; subst. exists [], ends. rewrite Et. split_and!; [done..|].
      simpl. by rewrite (left_id_L ∅ _).
    + apply Hskip; [congruence|done].
  - destruct (regexp_groups re_find (e_pat e) s) as [gs|] eqn:Eg.
    + apply regexp_groups_spec in Eg. inversion Hm; subst. exists [], ends. rewrite Et.
      split_and!; [done|done|by exists gs|]. by apply regexp_binds_map.
    + apply Hskip; [|done]. intros (gs & Hc). apply regexp_groups_spec in Hc. congruence.
  - inversion Hm; subst. exists [], ends. rewrite Et. split_and!; [done..|]. apply bind_holder_map.
  - inversion Hm; subst. exists [], ends. rewrite Et. split_and!; [done..|]. apply bind_glob_end_map.
Qed.

Lemma matchEndNode_good n t g s ps o ps' :
  rep n t -> matchEndNode re_find (n_ends n) g s ps = (o, ps') -> good t [s] g ps o ps'.
Proof.
  intros Hr Hm. apply matchEndNode_cases in Hm. destruct o as [e|]; simpl.
  - destruct Hm as (l1 & l2 & El & Hf & Ha & ->).
    assert (e ∈ n_ends n) as Hin by (rewrite El; set_solver).
    exists [e_pat e]. split_and!.
    + apply firsts_single_first. by apply (rep_ends n t).
    + by constructor.
    + intros r' Hr' Hacc. apply accepts_one in Hacc as (p' & -> & Hp').
      destruct (route_end n t p' Hr Hr') as (e' & He' & <-).
      destruct (decide (e_pat e' = e_pat e)) as [->|Hne]; [by left|right].
      assert (before (n_ends n) e e') as Hb.
      { rewrite El in He' |- *. exists l1, l2. split; [done|].
        apply elem_of_app in He' as [He'|He'].
        - eapply Forall_forall in Hf; [|exact He']. done.
        - apply elem_of_cons in He' as [->|?]; [done|done]. }
      apply (ends_before n t) in Hb; [|done]. destruct Hb as [Hlt|(Heq & Hne' & Hlb)].
      * by apply (beats_last_kind _ _ []).
      * by apply (beats_last_order _ _ []).
    + apply drift_eq.
  - destruct Hm as [Hf ->]. split; [|apply drift_refl].
    intros r Hin Hacc. apply accepts_one in Hacc as (p' & -> & Hp').
    destruct (route_end n t p' Hr Hin) as (e' & He' & <-).
    eapply Forall_forall in Hf; [|exact He']. done.
Qed.

(** several segments left: the sub-nodes first, then a final catch-all *)
Definition fails (t : tblp) (s : gostr) (rest : list gostr) (x : node) : Prop :=
  ~ sacc (n_pat x) s \/ (forall r, r ∈ (tails (n_pat x) t).*1 -> ~ accepts r rest).

Lemma matchTail_good n t g s rest ps o ps' :
  rep n t -> rest <> [] -> Forall (fails t s rest) (n_subs n) ->
  matchTail (n_ends n) g s (join (L "/") rest) ps = (o, ps') ->
  good t (s :: rest) g ps o ps'.
Proof.
  intros Hr Hne Hf Hm. unfold matchTail in Hm.
  assert (forall r', r' ∈ t.*1 -> accepts r' (s :: rest) ->
            exists e', e' ∈ n_ends n /\ r' = [e_pat e'] /\ e_typ e' = PMatchAll) as Hends.
  { intros r' Hr' Hacc. apply accepts_more in Hacc as [(p & -> & Hp)|(p & r'' & -> & Hr'' & Hp & Ha)]; [|exfalso|done].
    - destruct (route_end n t p Hr Hr') as (e' & He' & <-). by exists e'.
    - pose proof (route_sub n t p r'' Hr Hr' Hr'') as Hsub.
      apply elem_of_list_fmap in Hsub as (x & -> & Hx).
      eapply Forall_forall in Hf; [|exact Hx]. destruct Hf as [Hf|Hf]; [done|].
      apply (Hf r''); [|done]. by apply route_tails. }
  assert (o = None -> ps' = ps -> (forall r, r ∈ t.*1 -> ~ accepts r (s :: rest)) -> good t (s :: rest) g ps o ps') as Hnone.
  { intros -> -> Hno. split; [done|apply drift_refl]. }
  destruct (List.last (map Some (n_ends n)) None) as [e|] eqn:El.
  - apply last_map_Some in El as (l' & El).
    assert (forall e', e' ∈ n_ends n -> e' = e \/ before (n_ends n) e' e) as Hlast.
    { intros e' He'. rewrite El in He' |- *. apply elem_of_app in He' as [He'|He'].
      - right. apply before_snoc. by right.
      - left. by apply elem_of_list_singleton in He'. }
    assert (e ∈ n_ends n) as Hin by (rewrite El; set_solver).
    destruct (e_typ e) eqn:Et.
    4: { inversion Hm; subst o ps'. exists [e_pat e]. split_and!.
      - apply firsts_single_first. by apply (rep_ends n t).
      - by constructor.
      - intros r' Hr' Hacc. destruct (Hends _ Hr' Hacc) as (e' & He' & -> & Ht').
        destruct (Hlast _ He') as [->|Hb]; [by left|right].
        apply (ends_before n t) in Hb; [|done]. destruct Hb as [Hlt|(Heq & Hne' & Hlb)].
        + unfold tlt in Hlt. rewrite Et, Ht' in Hlt. simpl in Hlt. lia.
        + apply (beats_catch_all _ _ []); try done. simpl. destruct rest; [done|simpl; lia].
      - rewrite bind_glob_end_map. cbn [route_binds]. change (p_typ (e_pat e)) with (e_typ e).
        rewrite Et. rewrite (join_cons _ s rest) by done. apply drift_eq. }
    all: inversion Hm; subst; apply Hnone; try done;
      intros r' Hr' Hacc; destruct (Hends _ Hr' Hacc) as (e' & He' & -> & Ht');
      (destruct (Hlast _ He') as [->|Hb]; [congruence|]);
      apply (ends_before n t) in Hb; [|done]; destruct Hb as [Hlt|(Heq & _)];
      [unfold tlt in Hlt; rewrite Et, Ht' in Hlt; simpl in Hlt; lia|congruence].
  - apply last_map_None in El. inversion Hm; subst. apply Hnone; try done.
    intros r' Hr' Hacc. destruct (Hends _ Hr' Hacc) as (e' & He' & _).
    rewrite El in He'. by apply elem_of_nil in He'.
Qed.

(** the loop over the sub-nodes *)
Lemma loop_cases (rec : node -> nat -> Params -> option enode * Params) t ends g s rest :
  rest <> [] ->
  forall l ps o ps',
  (forall x, x ∈ l -> forall g ps o ps', rec x g ps = (o, ps') -> good (tails (n_pat x) t) rest g ps o ps') ->
  (forall x, x ∈ l -> exists r, n_pat x :: r ∈ t.*1 /\ r <> []) ->
  loop_segs re_find rec ends g s (join (L "/") rest) l ps = (o, ps') ->
  (exists ps1, Forall (fails t s rest) l /\
     drift t (s :: rest) ∅ (fun pre => exists x pre', x ∈ l /\ pre = n_pat x :: pre') ps ps1 /\
     matchTail ends g s (join (L "/") rest) ps1 = (o, ps')) \/
  (exists l1 x l2 e r ps1, l = l1 ++ x :: l2 /\ Forall (fails t s rest) l1 /\ sacc (n_pat x) s /\
     o = Some e /\
     find_first r (tails (n_pat x) t) = Some (e_id e, e_handlers e) /\ accepts r rest /\
     (forall r', r' ∈ (tails (n_pat x) t).*1 -> accepts r' rest ->
                 r' = r \/ beats (tails (n_pat x) t).*1 (length rest) r r') /\
     drift t (s :: rest) ∅ (fun pre => exists x pre', x ∈ l1 /\ pre = n_pat x :: pre') ps ps1 /\
     drift t (s :: rest) (list_to_map (route_binds re_find g (n_pat x :: r) (s :: rest)))
           (fun pre => ~ pre `prefix_of` n_pat x :: r) ps1 ps').
Proof.
  intros Hne. induction l as [|x l IH]; intros ps o ps' Hrec Hin Hl.
  { left. exists ps. split_and!; [constructor|apply drift_refl|done]. }
  assert (Hrec' : forall y, y ∈ l -> forall g ps o ps', rec y g ps = (o, ps') -> good (tails (n_pat y) t) rest g ps o ps').
  { intros y Hy. apply Hrec. by right. }
  assert (Hin' : forall y, y ∈ l -> exists r, n_pat y :: r ∈ t.*1 /\ r <> []).
  { intros y Hy. apply Hin. by right. }
  specialize (Hrec x ltac:(left)).
  destruct (Hin x ltac:(left)) as (r0 & Hr0 & Hr0ne). clear Hin.
  (* going on after x failed, with the map ps1 *)
  assert (Hskip : forall ps1, fails t s rest x ->
    drift t (s :: rest) ∅ (fun pre => exists pre', pre = n_pat x :: pre') ps ps1 ->
    loop_segs re_find rec ends g s (join (L "/") rest) l ps1 = (o, ps') ->
    (exists ps1, Forall (fails t s rest) (x :: l) /\
       drift t (s :: rest) ∅ (fun pre => exists y pre', y ∈ x :: l /\ pre = n_pat y :: pre') ps ps1 /\
       matchTail ends g s (join (L "/") rest) ps1 = (o, ps')) \/
    (exists l1 y l2 e r ps1, x :: l = l1 ++ y :: l2 /\ Forall (fails t s rest) l1 /\ sacc (n_pat y) s /\
       o = Some e /\
       find_first r (tails (n_pat y) t) = Some (e_id e, e_handlers e) /\ accepts r rest /\
       (forall r', r' ∈ (tails (n_pat y) t).*1 -> accepts r' rest ->
                   r' = r \/ beats (tails (n_pat y) t).*1 (length rest) r r') /\
       drift t (s :: rest) ∅ (fun pre => exists x pre', x ∈ l1 /\ pre = n_pat x :: pre') ps ps1 /\
       drift t (s :: rest) (list_to_map (route_binds re_find g (n_pat y :: r) (s :: rest)))
             (fun pre => ~ pre `prefix_of` n_pat y :: r) ps1 ps')).
  { intros ps1 Hfx Hd Hl'. destruct (IH _ _ _ Hrec' Hin' Hl') as
      [(ps2 & Hf & Hd2 & Hm)|(l1 & y & l2 & e & r & ps2 & -> & Hf & Hy & -> & Hff & Ha & Hb & Hd2 & Hd3)].
    - left. exists ps2. split_and!; [by constructor| |done].
      eapply drift_trans.
      + eapply drift_mono; [|exact Hd]. intros pre k v _ (pre' & ->). exists x, pre'. split; [by left|done].
      + eapply drift_mono; [|exact Hd2]. intros pre k v _ (y & pre' & Hy & ->). exists y, pre'. split; [by right|done].
    - right. exists (x :: l1), y, l2, e, r, ps2. split_and!; try done.
      + by constructor.
      + eapply drift_trans.
        * eapply drift_mono; [|exact Hd]. intros pre k v _ (pre' & ->). exists x, pre'. split; [by left|done].
        * eapply drift_mono; [|exact Hd2]. intros pre k v _ (z & pre' & Hz & ->). exists z, pre'. split; [by right|done]. }
  (* x matched *)
  assert (Hhit : forall g' ps1 e ps2 B, sacc (n_pat x) s -> rec x g' ps1 = (Some e, ps2) ->
    o = Some e ->
    (forall r, accepts r rest -> drift (tails (n_pat x) t) rest (list_to_map (route_binds re_find g' r rest))
                        (fun pre => ~ pre `prefix_of` r) ps1 ps2 ->
               drift t (s :: rest) (list_to_map (route_binds re_find g (n_pat x :: r) (s :: rest)))
                     (fun pre => ~ pre `prefix_of` n_pat x :: r) ps ps') ->
    B ->
    (exists l1 y l2 e r ps1, x :: l = l1 ++ y :: l2 /\ Forall (fails t s rest) l1 /\ sacc (n_pat y) s /\
       o = Some e /\
       find_first r (tails (n_pat y) t) = Some (e_id e, e_handlers e) /\ accepts r rest /\
       (forall r', r' ∈ (tails (n_pat y) t).*1 -> accepts r' rest ->
                   r' = r \/ beats (tails (n_pat y) t).*1 (length rest) r r') /\
       drift t (s :: rest) ∅ (fun pre => exists x pre', x ∈ l1 /\ pre = n_pat x :: pre') ps ps1 /\
       drift t (s :: rest) (list_to_map (route_binds re_find g (n_pat y :: r) (s :: rest)))
             (fun pre => ~ pre `prefix_of` n_pat y :: r) ps1 ps')).
  { intros g' ps1 e ps2 B Hx Hm -> Hdr _. apply Hrec in Hm as (r & Hff & Ha & Hb & Hd).
    exists [], x, l, e, r, ps. split_and!; try done.
    - apply drift_refl.
    - by apply Hdr. }
  assert (Hlift : forall B r ps1 ps2, sacc (n_pat x) s ->
    drift (tails (n_pat x) t) rest B (fun pre => ~ pre `prefix_of` r) ps1 ps2 ->
    drift t (s :: rest) B (fun pre => ~ pre `prefix_of` n_pat x :: r) ps1 ps2).
  { intros B r ps1 ps2 Hx Hd. eapply drift_lift; [done| |exact Hd].
    intros pre Hn Hp. apply Hn. by eapply prefix_cons_inv_2. }
  assert (Hlift' : forall ps1 ps2, sacc (n_pat x) s ->
    drift (tails (n_pat x) t) rest ∅ (fun _ => True) ps1 ps2 ->
    drift t (s :: rest) ∅ (fun pre => exists pre', pre = n_pat x :: pre') ps1 ps2).
  { intros ps1 ps2 Hx Hd. eapply drift_lift; [done| |exact Hd]. intros pre _. by exists pre. }
  assert (Hjoin : s ++ L "/" ++ join (L "/") rest = join (L "/") (s :: rest)).
  { by rewrite join_cons. }
  assert (Hbinds : forall r, accepts r rest ->
    route_binds re_find g (n_pat x :: r) (s :: rest) =
    match p_typ (n_pat x) with
      | PStatic => route_binds re_find g r rest
      | PRegexp => route_binds re_find g r rest ++ regexp_binds re_find (n_pat x) s
      | PHolder => holder_binds (n_pat x) s ++ route_binds re_find g r rest
      | PMatchAll =>
          (if decide (p_parsed (n_pat x) = []) then [(star_name g, s)]
           else glob_binds (n_pat x) g (join (L "/") (s :: rest))) ++ route_binds re_find (S g) r rest
    end).
  { intros r Ha. destruct r as [|p r]; [by apply route_accepts_nil_l in Ha|]. reflexivity. }
  cbn [loop_segs] in Hl. destruct (p_typ (n_pat x)) eqn:Et.
  - destruct (seqb (p_raw (n_pat x)) s) eqn:Eq.
    + apply sacc_static in Eq; [|done].
      destruct (rec x g ps) as [[e|] ps2] eqn:Er.
      * inversion Hl; subst. right. eapply (Hhit g ps e ps' True); try done.
        intros r Ha Hd. rewrite Hbinds by done. by apply Hlift.
      * apply Hrec in Er as [Hno Hd]. apply (Hskip ps2); [by right|by apply Hlift'|done].
    + apply (Hskip ps); [left|apply drift_refl|done].
      intros Ha. apply (sacc_static _ _ Et) in Ha. congruence.
  - destruct (regexp_groups re_find (n_pat x) s) as [gs|] eqn:Eg.
    + apply regexp_groups_spec in Eg as Hc.
      assert (sacc (n_pat x) s) as Hx by (unfold seg_accepts; rewrite Et; eauto).
      destruct (rec x g _) as [[e|] ps2] eqn:Er.
      * inversion Hl; subst. right. eapply (Hhit g _ e ps' True); try done.
        intros r Ha Hd. apply Hlift in Hd; [|done]. rewrite Hbinds by done.
        rewrite (regexp_binds_map _ _ _ _ Hc) in Hd. rewrite list_to_map_app.
        intros k. destruct (Hd k) as [Hk|Hk]; [left|by right]. by rewrite <- (assoc_L (∪)).
      * apply Hrec in Er as [Hno Hd]. apply (Hskip ps2); [by right| |done].
        apply (drift_trans _ _ _ _ _ (set_all (p_wild (n_pat x)) gs ps)); [|by apply Hlift'].
        intros k. rewrite (left_id_L ∅ _), set_all_map.
        destruct ((list_to_map (reverse (zip (p_wild (n_pat x)) gs)) : Params) !! k) as [v|] eqn:Ek.
        -- right. exists v, [n_pat x]. rewrite (lookup_union_Some_l _ _ _ _ Ek). split_and!; [done| |by exists []].
           exists [], (n_pat x), r0, s, gs. split_and!; try done; [constructor|].
           apply elem_of_list_to_map_2 in Ek. by rewrite elem_of_reverse in Ek.
        -- left. by rewrite lookup_union_r.
    + apply (Hskip ps); [left|apply drift_refl|done].
      unfold seg_accepts. rewrite Et. intros (gs & Hc). apply regexp_groups_spec in Hc. congruence.
  - assert (sacc (n_pat x) s) as Hx by (unfold seg_accepts; by rewrite Et).
    destruct (rec x g ps) as [[e|] ps2] eqn:Er.
    + inversion Hl; subst. right. eapply (Hhit g ps e ps2 True); try done.
      intros r Ha Hd. apply Hlift in Hd; [|done]. rewrite Hbinds by done.
      rewrite bind_holder_map, list_to_map_app.
      intros k. destruct ((list_to_map (holder_binds (n_pat x) s) : Params) !! k) as [v|] eqn:Ek.
      * left. rewrite <- (assoc_L (∪)). by rewrite !(lookup_union_Some_l _ _ _ _ Ek).
      * rewrite <- (assoc_L (∪)), !(lookup_union_r (list_to_map (holder_binds (n_pat x) s))) by done. apply Hd.
    + apply Hrec in Er as [Hno Hd]. apply (Hskip ps2); [by right|by apply Hlift'|done].
  - assert (sacc (n_pat x) s) as Hx by (unfold seg_accepts; by rewrite Et).
    destruct (rec x (S g) ps) as [[e|] ps2] eqn:Er.
    + inversion Hl; subst. right. eapply (Hhit (S g) ps e ps2 True); try done.
      intros r Ha Hd. apply Hlift in Hd; [|done]. rewrite Hbinds by done.
      rewrite bind_glob_sub_map, list_to_map_app. change (join ["/"%char] rest) with (join (L "/") rest). rewrite Hjoin.
      set (B := list_to_map (if decide (p_parsed (n_pat x) = []) then [(star_name g, s)]
           else glob_binds (n_pat x) g (join (L "/") (s :: rest))) : Params).
      intros k. destruct (B !! k) as [v|] eqn:Ek.
      * left. rewrite <- (assoc_L (∪)). by rewrite !(lookup_union_Some_l _ _ _ _ Ek).
      * rewrite <- (assoc_L (∪)), !(lookup_union_r B) by done. apply Hd.
    + apply Hrec in Er as [Hno Hd]. apply (Hskip ps2); [by right|by apply Hlift'|done].
Qed.

Lemma match_segs_good segs : forall n t g ps o ps',
  rep n t -> segs <> [] -> match_segs re_find segs n g ps = (o, ps') -> good t segs g ps o ps'.
Proof.
  induction segs as [|s rest IH]; intros n t g ps o ps' Hr Hne Hm; [done|].
  cbn [match_segs] in Hm. destruct rest as [|s2 rest].
  { by eapply matchEndNode_good. }
  set (rest' := s2 :: rest) in *.
  assert (rest' <> []) as Hne' by done.
  assert (Hsubs : forall x, x ∈ n_subs n -> rep x (tails (n_pat x) t)).
  { by inversion Hr. }
  destruct (loop_cases (match_segs re_find rest') t (n_ends n) g s rest' Hne' (n_subs n) ps o ps')
    as [(ps1 & Hf & Hd & Hm')|(l1 & x & l2 & e & r & ps1 & El & Hf & Hx & -> & Hff & Ha & Hb & Hd1 & Hd2)].
  - intros x Hx g' ps0 o' ps0' Hm'. eapply IH; [by apply Hsubs|done|exact Hm'].
  - intros x Hx. assert (n_pat x ∈ map n_pat (n_subs n)) as Hin by (apply elem_of_list_fmap; by exists x).
    apply (rep_subs n t _ Hr), elem_heads in Hin as (y & r & pl & Hin). exists (y :: r). split; [|done].
    apply elem_of_list_fmap. by exists (n_pat x :: y :: r, pl).
  - exact Hm.
  - pose proof (matchTail_good n t g s rest' ps1 o ps' Hr Hne' Hf Hm') as Hg.
    unfold good in *. destruct o as [e|].
    + destruct Hg as (r & Hff & Ha & Hb & Hd2). exists r. split_and!; try done.
      eapply drift_trans; [|exact Hd2]. eapply drift_mono; [|exact Hd].
      intros pre k v Hlb (x & pre' & Hx & ->) Hpre.
      (* r = [p] is a catch-all; a left-behind beginning ends in a regexp *)
      assert (exists p, r = [p] /\ p_typ p = PMatchAll) as (p & -> & Hp).
      { apply accepts_more in Ha as [?|(p & r' & -> & Hr' & Hp & Ha)]; [done| |done].
        exfalso.
        assert (p :: r' ∈ t.*1) as Hin.
        { unfold find_first in Hff. apply head_Some_elem_of in Hff.
          apply elem_of_list_omap in Hff as ([r'' pl] & Hin & He). case_decide; [|done].
          simpl in *. subst. apply elem_of_list_fmap. by exists (p :: r', pl). }
        pose proof (route_sub n t p r' Hr Hin Hr') as Hsub.
        apply elem_of_list_fmap in Hsub as (y & -> & Hy).
        eapply Forall_forall in Hf; [|exact Hy]. destruct Hf as [Hf|Hf]; [done|].
        apply (Hf r'); [|done]. by apply route_tails. }
      destruct Hlb as (c & q & z & s' & gs & Hc & _ & _ & Hq & _).
      destruct Hpre as (u & Hu). inversion Hu as [[Hpx Hu']].
      destruct pre' as [|]; [|done]. destruct c as [|c0 c]; [|by destruct c].
      inversion Hc; subst. congruence.
    + destruct Hg as [Hno Hd2]. split; [done|]. eapply drift_trans; [|exact Hd2].
      eapply drift_mono; [|exact Hd]. done.
  - exists (n_pat x :: r).
    assert (Hrne : r <> []) by (intros ->; by apply route_accepts_nil_l in Ha).
    split_and!.
    + by rewrite <- find_first_tails.
    + by constructor.
    + intros r' Hr' Hacc. apply accepts_more in Hacc as [(p & -> & Hp)|(p & r'' & -> & Hr'' & Hp & Ha')]; [| |done].
      * right. apply (beats_longer _ _ []); try done. simpl. lia.
      * destruct (decide (p = n_pat x)) as [->|Hnp].
        -- destruct (Hb r'') as [->|Hbt]; [by apply route_tails|done|by left|].
           right. by apply beats_lift.
        -- right. pose proof (route_sub n t p r'' Hr Hr' Hr'') as Hsub.
           apply elem_of_list_fmap in Hsub as (y & -> & Hy).
           assert (y ∉ l1) as Hyl1.
           { intros Hyl. eapply Forall_forall in Hf; [|exact Hyl]. destruct Hf as [Hf|Hf]; [done|].
             apply (Hf r''); [|done]. by apply route_tails. }
           assert (before (map n_pat (n_subs n)) (n_pat x) (n_pat y)) as Hbf.
           { rewrite El in Hy |- *. rewrite map_app. exists (map n_pat l1), (map n_pat l2). split; [done|].
             apply elem_of_app in Hy as [?|Hy]; [done|].
             apply elem_of_cons in Hy as [->|Hy]; [done|]. apply elem_of_list_fmap. by exists y. }
           apply (subs_before n t) in Hbf as [Hk|(Heq & Hnn & Hob)]; [| |done].
           ++ by apply (beats_inner_kind _ _ []).
           ++ by apply (beats_inner_order _ _ []).
    + eapply drift_trans; [|exact Hd2]. eapply drift_mono; [|exact Hd1].
      intros pre k v _ (y & pre' & Hy & ->) (u & Hu). inversion Hu as [[Hpx Hu']].
      pose proof (rep_subs_NoDup n t Hr) as Hnd. rewrite El, map_app in Hnd.
      apply NoDup_app in Hnd as (_ & Hnd & _). apply (Hnd (n_pat y)).
      * apply elem_of_list_fmap. by exists y.
      * rewrite <- Hpx. left.
Qed.

End Match.
