(** The listing of the release tree in terms of the registrations. *)
From Coq Require Import Sorted.
From Verif Require Import Base GoStr Strconv Pattern Tree GoStrFacts TreeSpec ListFacts TreeFacts TreeMatch TreeTop Router RouterSpec RouterFacts
  RouterDump MethodFacts HandlerFacts RouterProps Listing ListingSpec ListingFacts ListingTree ListingNode.

Section Top.
Context {A : Type}.
Variable re_ok : gostr -> bool.
Notation node := (node (handler A)).
Implicit Types (h : list (ev A)) (l : list (route A)).

(** ** The paths of the tree made of a list of routes *)
Lemma uri_route_raw u q : uri_route re_ok u q -> map p_raw q = uri_segs u.
Proof.
  unfold uri_route. induction 1 as [|s p ss ps Hp Hf IH]; [done|]. cbn [map]. rewrite IH.
  by rewrite (analyze_raw _ _ _ Hp).
Qed.
Lemma uri_route_segs u u' q q' : uri_route re_ok u q -> uri_route re_ok u' q' -> uri_segs u = uri_segs u' -> q = q'.
Proof.
  unfold uri_route. intros H1 H2 E. rewrite E in H1. clear E. revert q' H2.
  induction H1 as [|s p ss ps Hp Hf IH]; intros q' H2; inversion H2; subst; [done|]. f_equal; [congruence|by apply IH].
Qed.

Definition first_in l (segs : list gostr) (rt : route A) : Prop :=
  exists j, l !! j = Some rt /\ uri_segs (rt_variant rt) = segs /\
    forall i rt', i < j -> l !! i = Some rt' -> uri_segs (rt_variant rt') <> segs.

Lemma routes_of_lookup l tbl j rt q : routes_of re_ok (added l) tbl -> l !! j = Some rt -> tbl !! j = Some q ->
  uri_route re_ok (rt_variant rt) q.
Proof.
  intros Hro Hl Ht. unfold routes_of in Hro.
  assert (added l !! j = Some (rt_variant rt, rt_handlers rt)) as Ha by (unfold added; by rewrite list_lookup_fmap, Hl).
  exact (Forall2_lookup_lr _ _ _ _ _ _ Hro Ha Ht).
Qed.

Lemma tree_leaf l T segs c : adds re_ok (added l) = Ok T ->
  ((segs, Some c) ∈ map (shows []) (node_paths T) <-> exists rt, first_in l segs rt /\ c = length (rt_handlers rt)).
Proof.
  intros Ha. destruct (adds_rep re_ok (fun _ _ => None) _ _ Ha) as (tbl & Hro & Hrep).
  assert (Hlen : length (added l) = length tbl) by (by eapply Forall2_length).
  split.
  - intros Hin. apply elem_of_list_fmap in Hin as ([q o] & Heq & Hin). unfold shows in Heq. cbn [fst snd app] in Heq.
    injection Heq as -> <-. apply (node_paths_leaf _ _ Hrep) in Hin as (Hne & id & hs & Hf & ->).
    apply payloads_find in Hf as (j & u & -> & Hj & Hq & Hmin); [|done].
    unfold added in Hj. rewrite list_lookup_fmap in Hj. destruct (l !! j) as [rt|] eqn:Hl; [|done]. injection Hj as Hu Hh.
    exists rt. split; [|by rewrite Hh]. exists j. split; [done|]. pose proof (routes_of_lookup _ _ _ _ _ Hro Hl Hq) as Hr.
    split; [by rewrite (uri_route_raw _ _ Hr)|]. intros i rt' Hi Hl' E.
    destruct (lookup_lt_is_Some_2 tbl i) as [q' Hq'].
    { rewrite <- Hlen. unfold added. rewrite fmap_length. by eapply lookup_lt_Some. }
    pose proof (routes_of_lookup _ _ _ _ _ Hro Hl' Hq') as Hr'. apply (Hmin i Hi). rewrite Hq'. f_equal.
    eapply uri_route_segs; [exact Hr'|exact Hr|]. by rewrite E, (uri_route_raw _ _ Hr).
  - intros (rt & (j & Hj & Hs & Hmin) & ->).
    destruct (lookup_lt_is_Some_2 tbl j) as [q Hq].
    { rewrite <- Hlen. unfold added. rewrite fmap_length. by eapply lookup_lt_Some. }
    pose proof (routes_of_lookup _ _ _ _ _ Hro Hj Hq) as Hr. pose proof (uri_route_raw _ _ Hr) as Hraw.
    apply elem_of_list_fmap. exists (q, Some (length (rt_handlers rt))). unfold shows. cbn [fst snd app].
    split; [by rewrite Hraw, Hs|]. apply (node_paths_leaf _ _ Hrep). split.
    + intros ->. apply (uri_segs_nonempty (rt_variant rt)). by rewrite <- Hraw.
    + assert (exists pl, (q, pl) ∈ payloads 0 (added l) tbl) as [pl Hpl].
      { assert (q ∈ (payloads 0 (added l) tbl).*1) as Hin by (rewrite payloads_fst by done; by eapply elem_of_list_lookup_2).
        apply elem_of_list_fmap in Hin as ([q0 pl] & -> & Hin). eauto. }
      destruct (find_first_is _ _ _ Hpl) as [[id hs] Hf]. exists id, hs. split; [done|].
      apply payloads_find in Hf as (i & u & -> & Hi & Hqi & Hmini); [|done].
      unfold added in Hi. rewrite list_lookup_fmap in Hi. destruct (l !! i) as [rt'|] eqn:Hl; [|done]. injection Hi as Hu Hh.
      pose proof (routes_of_lookup _ _ _ _ _ Hro Hl Hqi) as Hr'. 
      destruct (Nat.lt_trichotomy i j) as [Hlt|[->|Hlt]].
      * exfalso. apply (Hmin i rt' Hlt Hl). by rewrite <- (uri_route_raw _ _ Hr'), Hraw.
      * rewrite Hj in Hl. injection Hl as ->. by rewrite Hh.
      * exfalso. by apply (Hmini j Hlt).
Qed.
Lemma tree_inner l T segs : adds re_ok (added l) = Ok T ->
  ((segs, None) ∈ map (shows []) (node_paths T) <->
   segs <> [] /\ exists rt s rest, rt ∈ l /\ uri_segs (rt_variant rt) = segs ++ s :: rest).
Proof.
  intros Ha. destruct (adds_rep re_ok (fun _ _ => None) _ _ Ha) as (tbl & Hro & Hrep).
  assert (Hlen : length (added l) = length tbl) by (by eapply Forall2_length).
  assert (Hpl : forall q, (exists pl, (q, pl) ∈ payloads 0 (added l) tbl) <-> exists j, tbl !! j = Some q).
  { intros q. rewrite <- elem_of_list_lookup.
    assert (q ∈ tbl <-> q ∈ (payloads 0 (added l) tbl).*1) as -> by (by rewrite payloads_fst).
    rewrite elem_of_list_fmap. split; [intros [pl Hin]; by exists (q, pl)|intros ([q0 pl] & -> & Hin); eauto]. }
  split.
  - intros Hin. apply elem_of_list_fmap in Hin as ([q o] & Heq & Hin). unfold shows in Heq. cbn [fst snd app] in Heq.
    injection Heq as -> <-. apply (node_paths_inner _ _ Hrep) in Hin as (Hne & x & r & pl & Hin).
    split; [by destruct q|]. destruct (proj1 (Hpl (q ++ x :: r))) as [j Hj]; [eauto|].
    destruct (lookup_lt_is_Some_2 l j) as [rt Hrt].
    { apply lookup_lt_Some in Hj. rewrite <- Hlen in Hj. unfold added in Hj. by rewrite fmap_length in Hj. }
    exists rt, (p_raw x), (map p_raw r). split; [by eapply elem_of_list_lookup_2|].
    rewrite <- (uri_route_raw _ _ (routes_of_lookup _ _ _ _ _ Hro Hrt Hj)), map_app. done.
  - intros (Hne & rt & s & rest & Hin & Hsegs). apply elem_of_list_lookup in Hin as [j Hj].
    destruct (lookup_lt_is_Some_2 tbl j) as [q Hq].
    { rewrite <- Hlen. unfold added. rewrite fmap_length. by eapply lookup_lt_Some. }
    pose proof (uri_route_raw _ _ (routes_of_lookup _ _ _ _ _ Hro Hj Hq)) as Hraw. rewrite Hsegs in Hraw.
    symmetry in Hraw. assert (exists q1 x r, q = q1 ++ x :: r /\ map p_raw q1 = segs) as (q1 & x & r & -> & <-).
    { clear -Hraw. revert q Hraw. induction segs as [|a segs IH]; intros q Hraw.
      - destruct q as [|x q]; [done|]. by exists [], x, q.
      - destruct q as [|y q]; [done|]. cbn [map app] in Hraw. injection Hraw as -> Hraw.
        destruct (IH _ Hraw) as (q1 & x & r & -> & <-). by exists (y :: q1), x, r. }
    apply elem_of_list_fmap. exists (q1, None). split; [done|]. apply (node_paths_inner _ _ Hrep). split; [by intros ->|].
    exists x, r. apply Hpl. eauto.
Qed.
Lemma tree_nodup l T : adds re_ok (added l) = Ok T -> NoDup (map (shows []) (node_paths T)).
Proof.
  intros Ha. destruct (adds_from_rep re_ok (fun _ _ => None) (added l) newTree 0 [] T) as (tbl & Hro & Hrep & Hok); [apply rep_empty|constructor|done|].
  cbn [app] in Hrep, Hok. apply NoDup_fmap_2_strong; [|by eapply node_paths_nodup].
  assert (Hpat : forall q o, (q, o) ∈ node_paths T -> Forall (pat_ok re_ok) q).
  { intros q o Hq. assert (exists r pl, (q ++ r, pl) ∈ payloads 0 (added l) tbl) as (r & pl & Hin).
    { destruct o as [c|].
      - apply (node_paths_leaf _ _ Hrep) in Hq as (_ & id & hs & Hf & _). exists [], (id, hs). rewrite app_nil_r.
        by apply find_first_elem.
      - apply (node_paths_inner _ _ Hrep) in Hq as (_ & x & r & pl & Hin). eauto. }
    unfold tbl_ok in Hok. rewrite Forall_forall in Hok. apply Hok in Hin. cbn [fst] in Hin. by apply Forall_app in Hin as [Hin _]. }
  intros [q o] [q' o'] H1 H2 Heq. unfold shows in Heq. cbn [fst snd app] in Heq. injection Heq as Hq ->. f_equal.
  apply Hpat in H1, H2. clear -Hq H1 H2. revert q' H2 Hq. induction H1 as [|p q Hp Hf IH]; intros q' H2 Hq.
  - by destruct q'.
  - destruct q' as [|p' q']; [done|]. cbn [map] in Hq. injection Hq as Hr Hq. inversion H2; subst.
    f_equal; [|by apply IH]. unfold pat_ok in *. congruence.
Qed.

(** ** The routes of a method *)
Lemma filter_pairs {B C} (R : B -> C -> Prop) (f : C -> bool) xs ys : Forall2 R xs ys ->
  exists zs, Forall2 R zs (List.filter f ys) /\ sublist zs xs /\
    forall x, x ∈ xs -> (forall y, R x y -> f y = true) -> x ∈ zs.
Proof.
  induction 1 as [|x y xs ys Hr Hf (zs & Hz & Hs & Ha)].
  { exists []. split_and!; [constructor|done|]. by intros x ?%elem_of_nil. }
  cbn [List.filter]. destruct (f y) eqn:Hfy; [exists (x :: zs)|exists zs]; split_and!; [by constructor|by constructor| |done|by constructor|].
  - intros z Hzin Hall. apply elem_of_cons in Hzin as [->|Hzin]; [left|right; by apply Ha].
  - intros z Hzin Hall. apply elem_of_cons in Hzin as [->|Hzin]; [|by apply Ha]. apply Hall in Hr. congruence.
Qed.
Lemma MethodIndex_inj m m' i : MethodIndex m = Some i -> MethodIndex m' = Some i -> m = m'.
Proof.
  unfold MethodIndex. intros H1 H2.
  repeat match type of H1 with context [seqb m ?x] => destruct (seqb_spec m x) as [->|_] end;
  repeat match type of H2 with context [seqb m' ?x] => destruct (seqb_spec m' x) as [->|_] end; congruence.
Qed.
Lemma sorted_sublist {B} (R : B -> B -> Prop) xs ys : sublist xs ys -> StronglySorted R ys -> StronglySorted R xs.
Proof.
  induction 1 as [|x l1 l2 Hs IH|x l1 l2 Hs IH]; intros Hso; [constructor| |].
  - inversion Hso as [|? ? H1 H2]; subst. constructor; [by apply IH|]. rewrite Forall_forall in *. intros y Hy. apply H2.
    by eapply elem_of_submseteq; [exact Hy|apply sublist_submseteq].
  - inversion Hso; subst. by apply IH.
Qed.

Lemma method_routes h r e opts m i : wf h -> built re_ok h r opts e -> MethodIndex m = Some i ->
  exists ls, (forall x, x ∈ ls <-> routes_under h r m x) /\ StronglySorted (ltl h) ls /\
    Forall2 (route_of h) ls (List.filter (of_method i) (rs_slice (en_store e))).
Proof.
  intros Hw Hb Hi. destruct (bu_store _ _ _ _ _ Hb) as (ls & [Hle Hso] & Hf).
  destruct (filter_pairs _ (of_method i) _ _ Hf) as (zs & Hz & Hs & Hall). exists zs. split_and!; [|by eapply sorted_sublist|done].
  assert (Hmi : forall m', MethodIndex m' = Some i -> m' = m).
  { intros m' Hm'. by eapply MethodIndex_inj. }
  intros l. split.
  - intros Hl. destruct (Forall2_lookup_of _ _ _ _ Hz Hl) as (rt & Hin & Hro).
    apply elem_of_list_In, List.filter_In in Hin as [_ Hm]. unfold of_method in Hm. apply bool_decide_eq_true, Hmi in Hm.
    assert (l ∈ ls) as Hl' by (by eapply elem_of_submseteq; [exact Hl|apply sublist_submseteq]).
    apply Hle in Hl' as [_ Hp]. split; [|done]. apply route_of_line in Hro as (Hr & _). by rewrite Hm in Hr.
  - intros [Hm Hp]. assert (l ∈ ls) as Hl by (apply Hle; eauto).
    destruct (Forall2_lookup_of _ _ _ _ Hf Hl) as (rt & Hin & Hro).
    assert (rt_method rt = m) as Hrm.
    { apply route_of_line in Hro as (Hr & _). destruct Hr as (? & ? & ? & Hr), Hm as (? & ? & ? & Hm). congruence. }
    apply Hall; [done|]. intros y Hy. rewrite (route_of_fun _ _ _ _ Hy Hro). unfold of_method. apply bool_decide_eq_true. congruence.
Qed.

Lemma sorted_lookup {B} (R : B -> B -> Prop) xs i j x y : StronglySorted R xs -> i < j -> xs !! i = Some x -> xs !! j = Some y -> R x y.
Proof.
  intros Hs. revert i j. induction Hs as [|z l Hs IH Hz]; intros i j Hij Hi Hj; [done|].
  destruct j as [|j]; [lia|]. destruct i as [|i]; simpl in Hi, Hj.
  - injection Hi as ->. rewrite Forall_forall in Hz. apply Hz. by eapply elem_of_list_lookup_2.
  - eapply IH; [|exact Hi|exact Hj]. lia.
Qed.
Lemma filter_nodup {B C} (f : B -> bool) (g : B -> C) xs ys : NoDup (xs ++ map g ys) -> NoDup (xs ++ map g (List.filter f ys)).
Proof.
  intros Hn. apply NoDup_app in Hn as (H1 & H2 & H3). apply NoDup_app. split_and!; [done| |].
  - intros x Hx Hy. apply (H2 x Hx). apply elem_of_list_fmap in Hy as (y & -> & Hy).
    apply elem_of_list_In, List.filter_In in Hy as [Hy _]. apply elem_of_list_fmap_1. by apply elem_of_list_In.
  - clear -H3. induction ys as [|y l IH]; [done|]. cbn [map] in H3. apply NoDup_cons in H3 as [Hn H3]. cbn [List.filter].
    destruct (f y); [|by apply IH]. cbn [map]. constructor; [|by apply IH]. intros Hin. apply Hn.
    apply elem_of_list_fmap in Hin as (z & -> & Hz). apply elem_of_list_In, List.filter_In in Hz as [Hz _].
    apply elem_of_list_fmap_1. by apply elem_of_list_In.
Qed.

Lemma first_in_route h r m ls l segs rt : (forall x, x ∈ ls <-> routes_under h r m x) -> StronglySorted (ltl h) ls ->
  Forall2 (route_of h) ls l -> first_in l segs rt -> first_route h r m segs (length (rt_handlers rt)).
Proof.
  intros Hle Hso Hf (j & Hj & Hs & Hmin). destruct (Forall2_lookup_r _ _ _ _ _ Hf Hj) as (x & Hx & Hro).
  destruct Hro as (path & m' & Hlin & Hm & E1 & E2 & E3 & E4 & Hc). exists x, path. split_and!.
  - apply Hle. by eapply elem_of_list_lookup_2.
  - exists path. split; [done|]. by rewrite <- E3.
  - exists path. split; [done|]. symmetry. by eapply Forall2_length.
  - done.
  - intros y path' Hy (path'' & Hl'' & Hsy) Hl' Hlex. rewrite (lineage_fun _ _ _ _ Hl'' Hl') in *. clear Hl'' path''.
    apply Hle, elem_of_list_lookup in Hy as [i Hi]. destruct (Forall2_lookup_l _ _ _ _ _ Hf Hi) as (rt' & Hrt' & Hro').
    assert (Hv : rt_variant rt' = _VariantUri (full_uri h path')).
    { destruct Hro' as (p2 & ? & Hp2 & _ & _ & _ & Hv & _). by rewrite (lineage_fun _ _ _ _ Hp2 Hl') in Hv. }
    destruct (Nat.lt_trichotomy i j) as [Hlt|[->|Hlt]].
    + apply (Hmin _ _ Hlt Hrt'). by rewrite Hv.
    + rewrite Hx in Hi. injection Hi as ->. rewrite (lineage_fun _ _ _ _ Hlin Hl') in Hlex. by apply lex_irrefl in Hlex.
    + assert (ltl h x y) as (p & q & Hp & Hq & Hl).
      { eapply sorted_lookup; [exact Hso|exact Hlt|done|done]. }
      rewrite (lineage_fun _ _ _ _ Hp Hlin), (lineage_fun _ _ _ _ Hq Hl') in Hl. by apply (lex_asym _ _ Hl).
Qed.
Lemma route_first_in h r m ls l segs n : (forall x, x ∈ ls <-> routes_under h r m x) -> StronglySorted (ltl h) ls ->
  Forall2 (route_of h) ls l -> first_route h r m segs n -> exists rt, first_in l segs rt /\ n = length (rt_handlers rt).
Proof.
  intros Hle Hso Hf (x & path & Hx & (p & Hp & Hsegs) & (p' & Hp' & ->) & Hlin & Hmin).
  rewrite (lineage_fun _ _ _ _ Hp Hlin) in *. rewrite (lineage_fun _ _ _ _ Hp' Hlin) in *. clear p p' Hp Hp'.
  pose proof Hx as Hxin. apply Hle, elem_of_list_lookup in Hxin as [j Hj]. destruct (Forall2_lookup_l _ _ _ _ _ Hf Hj) as (rt & Hrt & Hro).
  exists rt. pose proof Hro as (p & m' & Hp & Hm & E1 & E2 & E3 & E4 & Hc). rewrite (lineage_fun _ _ _ _ Hp Hlin) in *.
  split; [|by eapply Forall2_length]. exists j. split_and!; [done|by rewrite E3|].
  intros i rt' Hi Hrt' E. destruct (Forall2_lookup_r _ _ _ _ _ Hf Hrt') as (y & Hy & Hro').
  destruct Hro' as (q & my & Hq & _ & _ & _ & Hv & _).
  apply (Hmin y q); [apply Hle; by eapply elem_of_list_lookup_2| |done|].
  - exists q. split; [done|]. by rewrite <- Hv.
  - assert (ltl h y x) as (p1 & q1 & Hp1 & Hq1 & Hl) by (eapply sorted_lookup; [exact Hso|exact Hi|done|done]).
    by rewrite (lineage_fun _ _ _ _ Hp1 Hq), (lineage_fun _ _ _ _ Hq1 Hlin) in Hl.
Qed.

(** ** The text *)
Lemma items_text items : Forall2 item_text items (map disp items).
Proof.
  induction items as [|[[d label] o] l IH]; [constructor|]. constructor; [|done]. cbn [item_text disp fst snd].
  split; [done|]. destruct o as [n|]; [|by rewrite app_nil_r]. eexists. split; [apply fmt_int_ok|]. done.
Qed.

Definition top_line (T : node) : gostr :=
  concat (map (fun v => if seqb (p_raw (e_pat v)) [] then
                          L "/ [" ++ fmt_int 3 (length (e_handlers v)) ++ L "]" ++ newline
                        else []) (n_ends T)).
Lemma top_line_ok (T : node) : NoDup (map (shows []) (node_paths T)) ->
  (forall c c', ([[]], Some c) ∈ map (shows []) (node_paths T) -> ([[]], Some c') ∈ map (shows []) (node_paths T) -> c = c') ->
  (exists c, ([[]], Some c) ∈ map (shows []) (node_paths T) /\ top_line T = lines [L "/ [" ++ fmt_int 3 c ++ L "]"]) \/
  ((forall c, ([[]], Some c) ∉ map (shows []) (node_paths T)) /\ top_line T = []).
Proof.
  destruct T as [p subs ends]. unfold top_line. cbn [n_ends].
  assert (Hin : forall c, ([[]], Some c) ∈ map (shows []) (node_paths (Node p subs ends)) <->
    exists v, v ∈ ends /\ p_raw (e_pat v) = [] /\ c = length (e_handlers v)).
  { intros c. rewrite elem_of_list_fmap. split.
    - intros ([q o] & Heq & Hq). unfold shows in Heq. cbn [fst snd app] in Heq. injection Heq as Hr <-.
      apply node_paths_elem in Hq as [(s & Hs & [[_ ?]|(q' & -> & Hq)])|(v & Hv & -> & Hc)]; [done| |].
      + apply node_paths_nonempty in Hq. by destruct q'.
      + injection Hc as ->. cbn [map] in Hr. injection Hr as Hr. eauto.
    - intros (v & Hv & Hr & ->). exists ([e_pat v], Some (length (e_handlers v))). unfold shows. cbn [fst snd app map]. rewrite Hr.
      split; [done|]. apply node_paths_elem. right. eauto. }
  intros Hnd Hfun.
  rewrite node_paths_eq, map_app, map_map in Hnd. apply NoDup_app in Hnd as (_ & _ & Hnd).
  assert (Hfun' : forall v w, v ∈ ends -> w ∈ ends -> p_raw (e_pat v) = [] -> p_raw (e_pat w) = [] -> length (e_handlers v) = length (e_handlers w)).
  { intros v w Hv Hw H1 H2. apply Hfun; apply Hin; eauto. }
  set (f := fun v : enode (handler A) => if seqb (p_raw (e_pat v)) [] then L "/ [" ++ fmt_int 3 (length (e_handlers v)) ++ L "]" ++ newline else []).
  assert (Hno : forall l : list (enode (handler A)), (forall v, v ∈ l -> p_raw (e_pat v) <> []) -> concat (map f l) = []).
  { induction l as [|v l IH]; intros Hl; [done|]. cbn [map concat]. unfold f at 1.
    destruct (seqb_spec (p_raw (e_pat v)) []) as [E|_]; [by destruct (Hl v ltac:(left))|]. apply IH. intros w Hw. apply Hl. by right. }
  assert (Hex : (exists v, v ∈ ends /\ p_raw (e_pat v) = [] /\
     concat (map f ends) = lines [L "/ [" ++ fmt_int 3 (length (e_handlers v)) ++ L "]"]) \/
    (forall v, v ∈ ends -> p_raw (e_pat v) <> [])).
  { clear Hin Hfun. induction ends as [|v l IH]; [right; by intros v ?%elem_of_nil|].
    cbn [map] in Hnd. apply NoDup_cons in Hnd as [Hn Hnd].
    destruct (decide (p_raw (e_pat v) = [])) as [E|Hne].
    - left. exists v. split; [left|]. split; [done|]. cbn [map concat]. rewrite Hno.
      + rewrite app_nil_r. unfold f. rewrite E. unfold lines. cbn [map concat]. rewrite seqb_refl, app_nil_r, <- !app_assoc. done.
      + intros w Hw Ew. apply Hn. apply elem_of_list_fmap. exists w. split; [|done]. unfold shows. cbn [fst snd map app].
        rewrite E, Ew. do 2 f_equal. apply Hfun'; [left|by right|done|done].
    - destruct IH as [(w & Hw & Ew & Heq)|Hl]; [done| | |].
      + intros a b Ha Hb. apply Hfun'; by right.
      + left. exists w. split; [by right|]. split; [done|]. cbn [map concat]. rewrite Heq. unfold f.
        destruct (seqb_spec (p_raw (e_pat v)) []); done.
      + right. intros w Hw. apply elem_of_cons in Hw as [->|Hw]; [done|by apply Hl]. }
  destruct Hex as [(v & Hv & Ev & Heq)|Hl].
  - left. exists (length (e_handlers v)). split; [apply Hin; eauto|done].
  - right. split; [|by apply Hno]. intros c Hc. apply Hin in Hc as (v & Hv & Ev & _). by apply (Hl v).
Qed.

Lemma router_tree (ops : list (rop A)) hp r opts mem e mem' m0 m : run_ops ops [] = Ok hp ->
  Handler re_ok hp r opts mem = (Ok e, mem') -> m = to_upper m0 ->
  (m ∉ _HTTP_METHODS_NAMES /\ is_panic (PrintRouterTree e m0)) \/
  (m ∈ _HTTP_METHODS_NAMES /\ exists text, PrintRouterTree e m0 = Ok text /\
    (((forall x, ~ routes_under (history ops) r m x) /\ text = lines [L "no route"]) \/
     ((exists x, routes_under (history ops) r m x) /\ exists top items texts lns,
       text = lines (top ++ lns) /\ Forall2 item_text items texts /\ Forall2 sketch texts lns /\
       ((exists n nt, first_route (history ops) r m [[]] n /\ filled_left 3 (number n) nt /\
           top = [L "/ [" ++ nt ++ L "]"]) \/
        ((forall n, ~ first_route (history ops) r m [[]] n) /\ top = [])) /\
       NoDup (reading [] items) /\
       (forall segs n, (segs, Some n) ∈ reading [] items <-> segs <> [[]] /\ first_route (history ops) r m segs n) /\
       (forall segs, (segs, None) ∈ reading [] items <->
          segs <> [] /\ exists x s rest, routes_under (history ops) r m x /\ has_segs (history ops) x (segs ++ s :: rest)) /\
       (top = [] -> text = drawing texts)))).
Proof.
  intros Hr Hh ->. unfold PrintRouterTree. rewrite checkMethod_eq.
  destruct (MethodIndex (to_upper m0)) as [i|] eqn:Hi.
  2: { left. split; [|by eexists]. rewrite MethodIndex_names. intros [j Hj]. congruence. }
  right. split; [apply MethodIndex_names; eauto|]. cbn [rbind]. set (m := to_upper m0) in *.
  apply run_heap in Hr as [-> Hw]. set (h := history ops) in *. apply Handler_built in Hh as (_ & Hb & _); [|done].
  destruct (method_routes _ _ _ _ _ _ Hw Hb Hi) as (ls & Hle & Hso & Hf).
  destruct (lookup_lt_is_Some_2 (en_routers e) i) as [mr Hmr].
  { rewrite (bu_len _ _ _ _ _ Hb). pose proof (MethodIndex_lt _ _ Hi). lia. }
  rewrite Hmr. destruct (bu_routers _ _ _ _ _ Hb _ _ Hmr) as [tbl Hmi]. pose proof (mi_tree _ _ _ _ _ Hmi) as Ht.
  set (l := List.filter (of_method i) (rs_slice (en_store e))) in *.
  destruct (m_tree mr) as [T|] eqn:ET.
  2: { exists no_route. split; [done|]. left. split; [|done]. intros x Hx. apply Hle in Hx. rewrite Ht in Hf.
       apply Forall2_nil_inv_r in Hf. subst ls. by apply elem_of_nil in Hx. }
  fold (top_line T). eexists. split; [reflexivity|]. right. split.
  { pose proof (mi_some _ _ _ _ _ Hmi) as Hsome. rewrite ET in Hsome. destruct l as [|rt l'] eqn:El; [by destruct Hsome|].
    inversion Hf as [|x ? ls' ? Hx Hf']; subst. exists x. apply Hle. left. }
  destruct T as [p subs ends] eqn:EqT. rewrite <- EqT in *.
  set (T' := Node p subs (List.filter real_end ends)).
  assert (Hit : node_items true 0 T = node_items false 0 T') by (rewrite EqT; apply root_items).
  destruct (print_tree_sketch T true [] []) as (lns & Hsk & Hpr); [constructor|by vm_compute|].
  cbn [length] in Hsk. set (items := node_items true 0 T) in *.
  assert (Hread : reading [] items = map (shows []) (node_paths T')).
  { destruct (reading_node T' 0 [] [] ltac:(simpl; lia)) as (st & _ & _ & Hrd). rewrite app_nil_r in Hrd.
    rewrite Hit, Hrd. cbn [reading take]. by rewrite app_nil_r. }
  pose proof (tree_nodup _ _ Ht) as Hnd.
  assert (Hone : forall c c', ([[]], Some c) ∈ map (shows []) (node_paths T) -> ([[]], Some c') ∈ map (shows []) (node_paths T) -> c = c').
  { intros c c' H1 H2. apply (tree_leaf _ _ _ _ Ht) in H1 as (rt & (j & Hj & Hs & Hm) & ->), H2 as (rt' & (j' & Hj' & Hs' & Hm') & ->).
    destruct (Nat.lt_trichotomy j j') as [Hlt|[->|Hlt]]; [by destruct (Hm' _ _ Hlt Hj)|congruence|by destruct (Hm _ _ Hlt Hj')]. }
  assert (Hin : forall segs o, (segs, o) ∈ map (shows []) (node_paths T') <->
     (segs, o) ∈ map (shows []) (node_paths T) /\ ~ (segs = [[]] /\ o <> None)).
  { intros segs o. rewrite !elem_of_list_fmap. split.
    - intros ([q c] & Heq & Hq). unfold shows in Heq. cbn [fst snd app] in Heq. injection Heq as -> ->.
      apply real_paths in Hq as [Hq Hne]. split; [|done]. exists (q, c). rewrite EqT. done.
    - intros (([q c] & Heq & Hq) & Hne). unfold shows in Heq. cbn [fst snd app] in Heq. injection Heq as -> ->.
      exists (q, c). split; [done|]. apply real_paths. rewrite <- EqT. done. }
  assert (Hleaf : forall segs n, (segs, Some n) ∈ map (shows []) (node_paths T) <-> first_route h r m segs n).
  { intros segs n. rewrite (tree_leaf _ _ _ _ Ht). split.
    - intros (rt & Hrt & ->). by eapply first_in_route.
    - by apply route_first_in with (ls := ls). }
  assert (exists top, top_line T = lines top /\ 
       ((exists n nt, first_route h r m [[]] n /\ filled_left 3 (number n) nt /\
           top = [L "/ [" ++ nt ++ L "]"]) \/
        ((forall n, ~ first_route h r m [[]] n) /\ top = []))) as (top & Htop & Htop').
  { destruct (top_line_ok T Hnd Hone) as [(c & Hc & Heq)|[Hno Heq]].
    - eexists. split; [exact Heq|]. left. exists c, (fmt_int 3 c). split_and!; [by apply Hleaf|apply fmt_int_ok|done].
    - exists []. split; [done|]. right. split; [|done]. intros n Hn. apply (Hno n). by apply Hleaf. }
  exists top, items, (map disp items), lns. split_and!; [| | | | | | |].
  8: { intros ->. rewrite Htop. cbn [lines map concat app].
       rewrite (print_tree_draw T true 0 [] []); [by rewrite draw_in_nil|constructor|by vm_compute|].
       intros _ v Hv Hraw. destruct Htop' as [(n & nt & _ & _ & ?)|[Hno _]]; [done|].
       apply (Hno (length (e_handlers v))), Hleaf. apply elem_of_list_fmap. exists ([e_pat v], Some (length (e_handlers v))).
       unfold shows. cbn [fst snd map app]. rewrite Hraw. split; [done|]. rewrite EqT. apply node_paths_elem. right. exists v.
       rewrite EqT in Hv. done. }
  - by rewrite Hpr, Htop, lines_app.
  - apply items_text.
  - done.
  - done.
  - rewrite Hread. unfold T'. rewrite EqT, node_paths_eq, map_app, map_map in Hnd.
    rewrite node_paths_eq, map_app, map_map. by apply filter_nodup.
  - intros segs n. rewrite Hread, Hin, Hleaf. split.
    + intros [Hn Hne]. split; [|done]. intros ->. by apply Hne.
    + intros [Hne Hn]. split; [done|]. by intros [? _].
  - intros segs. rewrite Hread, Hin, (tree_inner _ _ _ Ht). split.
    + intros [(Hne & rt & s & rest & Hrt & Hsegs) _]. split; [done|].
      destruct (Forall2_lookup_of_r _ _ _ _ Hf Hrt) as (x & Hx & Hro). exists x, s, rest. split; [by apply Hle|].
      destruct Hro as (q & my & Hq & _ & _ & _ & Hv & _). exists q. split; [done|]. by rewrite <- Hv.
    + intros (Hne & x & s & rest & Hx & (q & Hq & Hsegs)). split; [|by intros [_ ?]]. split; [done|].
      apply Hle in Hx. destruct (Forall2_lookup_of _ _ _ _ Hf Hx) as (rt & Hrt & Hro). exists rt, s, rest. split; [done|].
      destruct Hro as (q' & my & Hq' & _ & _ & _ & Hv & _). rewrite (lineage_fun _ _ _ _ Hq' Hq) in Hv. by rewrite Hv.
Qed.

Lemma router_tree_drawn (ops : list (rop A)) hp r opts mem e mem' m0 text : run_ops ops [] = Ok hp ->
  Handler re_ok hp r opts mem = (Ok e, mem') ->
  PrintRouterTree e m0 = Ok text -> text <> lines [L "no route"] ->
  (forall n, ~ first_route (history ops) r (to_upper m0) [[]] n) ->
  exists items texts, text = drawing texts /\ Forall2 item_text items texts /\ NoDup (reading [] items) /\
    forall segs n, (segs, Some n) ∈ reading [] items <-> first_route (history ops) r (to_upper m0) segs n.
Proof.
  intros Hr Hh Ht Hne Hno.
  destruct (router_tree _ _ _ _ _ _ _ m0 _ Hr Hh eq_refl) as [[_ [msg Hp]]|(_ & text' & Ht' & H)]; [congruence|].
  rewrite Ht in Ht'. injection Ht' as <-. destruct H as [[_ H]|(_ & top & items & texts & lns & _ & H1 & _ & H2 & H3 & H4 & _ & H5)]; [done|].
  destruct H2 as [(n & nt & Hn & _)|[_ ->]]; [by destruct (Hno n)|]. exists items, texts. split_and!; [by apply H5|done|done|].
  intros segs n. rewrite H4. split; [by intros [_ ?]|]. intros Hn. split; [|done]. intros ->. by apply (Hno n).
Qed.

(** ** The raw router, read after further calls *)
Lemma raw_router (ops later : list (rop A)) hp r opts mem e mem' hp' : run_ops ops [] = Ok hp ->
  Handler re_ok hp r opts mem = (Ok e, mem') -> run_ops later hp = Ok hp' ->
  exists ns its, outline (history (ops ++ later)) r ns /\
    Forall2 (outline_item (history (ops ++ later)) r (runs_after (history (ops ++ later)))) ns its /\
    PrintRawRouter hp' e = Ok (drawing its).
Proof.
  intros Hr Hh Hl.
  assert (Hr' : run_ops (ops ++ later) [] = Ok hp') by (by rewrite run_ops_app, Hr).
  apply run_heap in Hr as [-> Hw]. apply run_heap in Hr' as [-> Hw'].
  pose proof (Handler_root' _ _ _ _ _ _ _ Hw Hh) as Hroot. apply Handler_built in Hh as (_ & Hb & _); [|done].
  pose proof (bu_root _ _ _ _ _ Hb) as Hre. subst r.
  destruct (raw_router_drawn (history (ops ++ later)) Hw' e) as (ns & its & H1 & H2 & H3).
  { rewrite history_app. unfold creations in *. rewrite List.filter_app. by apply lookup_app_l_Some. }
  exists ns, its. split_and!; [done| |done].
  eapply Forall2_impl; [exact H2|]. intros x it (path & Hlin & Hd & Hit). exists path. split_and!; [done|done|].
  destruct Hit as [Hit|(p & m & pat & hs & mt & n & Hc & Hf & Hs & Heq)]; [by left|]. right.
  exists p, m, pat, hs, mt, n. split_and!; [done|done| |done].
  apply shown_runs in Hs as (path' & b & Hl' & Hb' & Hn). destruct path' as [|b' path']; [done|]. injection Hb' as ->.
  exists b, path'. done.
Qed.
Lemma raw_router_exact (ops later : list (rop A)) hp r opts mem e mem' hp' : run_ops ops [] = Ok hp ->
  Handler re_ok hp r opts mem = (Ok e, mem') -> run_ops later hp = Ok hp' ->
  befores (history (ops ++ later)) r = [] ->
  exists ns its, outline (history (ops ++ later)) r ns /\
    Forall2 (outline_item (history (ops ++ later)) r (runs (history (ops ++ later)))) ns its /\
    PrintRawRouter hp' e = Ok (drawing its).
Proof.
  intros Hr Hh Hl Hb. destruct (raw_router _ _ _ _ _ _ _ _ _ Hr Hh Hl) as (ns & its & H1 & H2 & H3).
  exists ns, its. split_and!; [done| |done].
  eapply Forall2_impl; [exact H2|]. intros x it (path & Hlin & Hd & Hit). exists path. split_and!; [done|done|].
  destruct Hit as [Hit|(p & m & pat & hs & mt & n & Hc & Hf & Hs & Heq)]; [by left|]. right.
  exists p, m, pat, hs, mt, n. split_and!; [done|done| |done].
  destruct Hs as (r' & path' & Hl' & Hn). assert (r' = r) as ->.
  { pose proof (lineage_fun _ _ _ _ Hl' Hlin) as E. by injection E as ->. }
  exists (r :: path'). split; [done|]. rewrite Hb in Hn. simpl in Hn. lia.
Qed.
End Top.
