(** The dump of the routes of a router, against the history. *)
From Coq Require Import Sorted.
From Verif Require Import Base GoStr Strconv Pattern Tree TreeSpec Router RouterSpec RouterFacts.

Section Dump.
Context {A : Type}.
Implicit Types h : list (ev A).

(** ** Lineages *)
Lemma lineage_fun h r p1 p2 : lineage h r p1 -> lineage h r p2 -> p1 = p2.
Proof.
  intros H1. revert p2. induction H1 as [r Hr|r c p path Hc Hp H1 IH]; intros p2 H2.
  - inversion H2; subst; [done|]. rewrite Hr in H. by simplify_eq.
  - inversion H2; subst; [by rewrite H in Hc; simplify_eq|].
    rewrite Hc in H. simplify_eq. f_equal. by apply IH.
Qed.
Lemma creation_creates h i c : creations h !! i = Some c -> creates c = true.
Proof. intros Hc. apply elem_of_list_lookup_2, elem_of_list_In in Hc. by apply List.filter_In in Hc as [_ ?]. Qed.
Lemma lineage_exists h : wf h -> forall r c, creations h !! r = Some c -> exists path, lineage h r path.
Proof.
  intros Hw r. induction (lt_wf r) as [r _ IH]. intros c Hc.
  destruct (parent_of c) as [p|] eqn:Hp.
  - destruct (wf_parent h Hw _ _ _ Hc Hp) as (Hlt & e & He & _).
    destruct (IH p Hlt e He) as [path Hpath]. exists (path ++ [r]). by eapply lineage_child.
  - exists [r]. apply lineage_root. rewrite Hc. f_equal. apply creation_creates in Hc. by destruct c.
Qed.
Lemma lineage_last h r path : lineage h r path -> exists p, path = p ++ [r].
Proof. destruct 1; [by exists []|eauto]. Qed.
Lemma lineage_head h r path : lineage h r path ->
  exists root p, path = root :: p /\ creations h !! root = Some ENew.
Proof.
  induction 1 as [r Hr|r c p path Hc Hp H1 (root & q & -> & Hroot)]; [eauto|].
  exists root, (q ++ [r]). eauto.
Qed.
Lemma lineage_creation h r path : lineage h r path -> exists c, creations h !! r = Some c.
Proof. destruct 1; eauto. Qed.

(** ** Climbing *)
Definition upat h (r : nat) : gostr :=
  match creations h !! r with Some e => trim_space (pattern_of e) | None => [] end.

Lemma befores_nonroot h r c : wf h -> creations h !! r = Some c -> c <> ENew -> befores h r = [].
Proof.
  intros Hw Hc Hn. unfold befores. apply concat_nil_all. intros x Hx.
  apply elem_of_list_fmap in Hx as (e & -> & He). destruct e; try done.
  destruct (decide _) as [->|]; [|done]. apply (wf_before h Hw) in He. congruence.
Qed.

Lemma climb_lineage h : wf h -> forall r path, lineage h r path ->
  forall fuel ps hs, r < fuel ->
  climb fuel (heap_of h) r ps hs =
    Ok (ps ++ rev (map (upat h) path),
        match path with root :: _ => befores h root | [] => [] end ++ concat (map (mws h) path) ++ hs ++
        match creations h !! r with Some e => handlers_of e | None => [] end).
Proof.
  intros Hw r path Hl. induction Hl as [r Hr|r c p path Hc Hp Hl IH]; intros fuel ps hs Hf.
  - destruct fuel as [|fuel]; [lia|]. cbn [climb]. rewrite heap_lookup, Hr. simpl.
    unfold upat. rewrite Hr. simpl. by rewrite !app_nil_r.
  - destruct fuel as [|fuel]; [lia|]. cbn [climb]. rewrite heap_lookup, Hc. simpl. rewrite Hp.
    destruct (wf_parent h Hw _ _ _ Hc Hp) as (Hlt & e & He & Hleaf).
    rewrite IH by lia. rewrite He. destruct (lineage_head _ _ _ Hl) as (root & q & -> & Hroot).
    f_equal. f_equal.
    + rewrite map_app, rev_app_distr. simpl. unfold upat at 3. rewrite Hc. by rewrite <- app_assoc.
    + simpl. rewrite (befores_nonroot h r c) by (done || by intros ->). simpl.
      rewrite map_app, concat_app. simpl. rewrite app_nil_r.
      assert (handlers_of e = []) as -> by (by destruct e). rewrite app_nil_r. by rewrite <- !app_assoc.
Qed.

Lemma join_nil l : join [] l = concat l.
Proof. induction l as [|x [|y l] IH]; simpl in *; [done|by rewrite app_nil_r|]. by rewrite IH. Qed.

(** the outcome of conversion *)
Lemma newHandler_ok (v : ival A) hd : newHandler v = Ok hd <-> converts v hd.
Proof.
  split.
  - destruct v; simpl; intros Hv; inversion Hv; constructor.
  - by destruct 1.
Qed.
Lemma newHandlers_ok (vs : list (ival A)) hs : newHandlers vs = Ok hs <-> Forall2 converts vs hs.
Proof.
  revert hs. induction vs as [|v vs IH]; intros hs; simpl.
  - split; [intros [= <-]; constructor|]. inversion 1; done.
  - rewrite rbind_ok. split.
    + intros (hd & Hh & Hr). apply rbind_ok in Hr as (hs' & Hr & [= <-]).
      constructor; [by apply newHandler_ok|by apply IH].
    + inversion 1; subst. exists y. split; [by apply newHandler_ok|]. apply rbind_ok.
      exists l'. split; [by apply IH|done].
Qed.
Lemma newHandlers_total (vs : list (ival A)) : is_ok (newHandlers vs) \/ is_panic (newHandlers vs).
Proof.
  induction vs as [|v vs IH]; simpl; [left; by eexists|].
  destruct v; simpl; try (by right; eexists); destruct IH as [[x ->]|[x ->]]; simpl;
  (by left; eexists) || (by right; eexists).
Qed.
Lemma supported_all (vs : list (ival A)) : Forall supported vs <-> is_ok (newHandlers vs).
Proof.
  split.
  - intros Hs. assert (exists hs, Forall2 converts vs hs) as [hs Hhs].
    { induction Hs as [|v vs [hd Hv] Hs [hs IH]]; [exists []; constructor|]. exists (hd :: hs). by constructor. }
    exists hs. by apply newHandlers_ok.
  - intros [hs Hh]. apply newHandlers_ok in Hh. induction Hh; constructor; [by eexists|done].
Qed.

(** what getRoute returns *)
Lemma getRoute_eq h r c path : wf h -> creations h !! r = Some c -> lineage h r path ->
  getRoute (heap_of h) r =
    let! hs := newHandlers (chain h path r) in
    match hs with
    | [] => Panic (L "handler err : empty handlers in route")
    | _ => Ok (mkRoute (method_of c) (full_uri h path) [] hs)
    end.
Proof.
  intros Hw Hc Hl. unfold getRoute. rewrite (climb_lineage h Hw r path Hl).
  2: { apply lookup_lt_Some in Hc. rewrite heap_length. lia. }
  cbn [rbind]. rewrite heap_lookup, Hc. cbn [fmap option_fmap option_map]. unfold chain. rewrite Hc. simpl.
  unfold reverseStrings. rewrite rev_involutive, join_nil. done.
Qed.

(** ** Terminals *)
Fixpoint terms (fuel : nat) (hp : heap A) (r : nat) : list nat :=
  match fuel with
  | O => []
  | S fuel => match hp !! r with
              | None => []
              | Some x => match r_sub x with [] => [r] | subs => concat (map (terms fuel hp) subs) end
              end
  end.

Fixpoint addall (hp : heap A) (ts : list nat) (rs : routeStore A) : res (routeStore A) :=
  match ts with
  | [] => Ok rs
  | t :: ts' => let! rt := getRoute hp t in let! rs := rs_add rs rt in addall hp ts' rs
  end.
Lemma addall_app hp t1 t2 rs : addall hp (t1 ++ t2) rs = let! rs := addall hp t1 rs in addall hp t2 rs.
Proof.
  revert rs. induction t1 as [|t t1 IH]; intros rs; simpl; [done|].
  destruct (getRoute hp t); simpl; [|done|done]. destruct (rs_add rs a); simpl; [|done|done]. apply IH.
Qed.

Lemma elem_of_children h r i : i ∈ children h r <-> exists c, creations h !! i = Some c /\ parent_of c = Some r.
Proof.
  unfold children. rewrite elem_of_list_In, List.filter_In, <- elem_of_list_In, elem_of_seq. split.
  - intros [Hi Hc]. destruct (creations h !! i) as [c|]; [|done]. apply bool_decide_eq_true in Hc. eauto.
  - intros (c & Hc & Hp). rewrite Hc. split; [apply lookup_lt_Some in Hc; lia|]. by apply bool_decide_eq_true.
Qed.
Lemma children_sorted h r : StronglySorted lt (children h r).
Proof.
  unfold children. generalize (length (creations h)). intros n. generalize 0.
  induction n as [|n IH]; intros k; simpl; [constructor|].
  destruct (match creations h !! k with Some c => _ | None => false end); [|apply IH].
  constructor; [apply IH|]. apply Forall_forall. intros x Hx. apply elem_of_list_In, List.filter_In in Hx as [Hx _].
  apply elem_of_list_In, elem_of_seq in Hx. lia.
Qed.
Lemma childless_iff h r : childless h r <-> children h r = [].
Proof.
  split.
  - intros Hc. destruct (children h r) as [|i l] eqn:He; [done|].
    assert (i ∈ children h r) as Hi by (rewrite He; left). apply elem_of_children in Hi as (c & Hi & Hp).
    by apply Hc in Hi.
  - intros He i c Hi Hp. assert (i ∈ children h r) as Hin by (apply elem_of_children; eauto).
    rewrite He in Hin. by apply elem_of_nil in Hin.
Qed.

Lemma dumpRoute_terms h : wf h -> forall fuel r rs, r < length (creations h) ->
  length (creations h) < fuel + r ->
  dumpRoute fuel (heap_of h) r rs = addall (heap_of h) (terms fuel (heap_of h) r) rs.
Proof.
  intros Hw. induction fuel as [|fuel IH]; intros r rs Hr Hf; [lia|].
  cbn [dumpRoute terms]. rewrite heap_lookup. destruct (creations h !! r) as [c|] eqn:Hc.
  2: { apply lookup_ge_None in Hc. lia. }
  simpl. destruct (children h r) as [|a l] eqn:He.
  - simpl. destruct (getRoute _ r) as [rt| |]; simpl; [|done|done]. by destruct (rs_add rs rt).
  - assert (Hall : forall i, i ∈ a :: l -> r < i < length (creations h)).
    { intros i Hi. rewrite <- He in Hi. apply elem_of_children in Hi as (ci & Hi & Hp).
      split; [by apply (wf_parent h Hw _ _ _ Hi Hp)|by apply lookup_lt_Some in Hi]. }
    assert (Hgo : forall cs rs, (forall i, i ∈ cs -> r < i < length (creations h)) ->
      (fix go (l : list nat) (rs : routeStore A) {struct l} : res (routeStore A) :=
         match l with
         | [] => Ok rs
         | v :: l' => let! rs := dumpRoute fuel (heap_of h) v rs in go l' rs
         end) cs rs = addall (heap_of h) (concat (map (terms fuel (heap_of h)) cs)) rs).
    { induction cs as [|i cs IHl]; intros rs' Hcs; [done|].
      cbn [map concat]. rewrite addall_app.
      rewrite IH by (specialize (Hcs i ltac:(left)); lia).
      destruct (addall (heap_of h) (terms fuel (heap_of h) i) rs'); simpl; [|done|done].
      apply IHl. intros j Hj. apply Hcs. by right. }
    apply (Hgo (a :: l) rs Hall).
Qed.

(** the terminals below r: exactly the childless descendants, in lineage order *)
Lemma lineage_down h r path i c : lineage h r path -> creations h !! i = Some c -> parent_of c = Some r ->
  lineage h i (path ++ [i]).
Proof. intros. by eapply lineage_child. Qed.
Lemma lineage_split h x q path r t : wf h -> lineage h r path -> lineage h x q -> q = path ++ t -> t <> [] ->
  exists i t', t = i :: t' /\ i ∈ children h r.
Proof.
  intros Hw Hr Hx. revert t. induction Hx as [x Hx|x c p q Hc Hp Hx IH]; intros t Hq Ht.
  - destruct (lineage_head _ _ _ Hr) as (root & p & -> & _). destruct p, t; simplify_eq.
  - destruct (exists_last Ht) as (t1 & y & ->). rewrite app_assoc in Hq. apply app_inj_tail in Hq as [Hq <-].
    destruct t1 as [|i t1].
    + rewrite app_nil_r in Hq. subst. exists x, []. split; [done|]. apply elem_of_children.
      exists c. split; [done|]. rewrite Hp.
      destruct (lineage_last _ _ _ Hr) as [p1 ->]. destruct (lineage_last _ _ _ Hx) as [p2 Hp2].
      by apply app_inj_tail in Hp2 as [_ ->].
    + destruct (IH _ Hq) as (j & t' & Hj & Hin); [done|]. inversion Hj; subst. exists j, (t' ++ [x]). done.
Qed.

Lemma elem_of_concat' {B} (x : B) ls : x ∈ concat ls <-> exists l, l ∈ ls /\ x ∈ l.
Proof.
  induction ls as [|l ls IH]; simpl.
  - split; [by rewrite elem_of_nil|]. intros (l & Hl & _). by apply elem_of_nil in Hl.
  - rewrite elem_of_app, IH. split.
    + intros [Hx|(l' & Hl & Hx)]; [exists l|exists l']; (split; [constructor; done|done]).
    + intros (l' & Hl & Hx). apply elem_of_cons in Hl as [->|Hl]; eauto.
Qed.

Lemma terms_elem h : wf h -> forall fuel r path, lineage h r path -> length (creations h) < fuel + r ->
  forall x, x ∈ terms fuel (heap_of h) r <-> childless h x /\ exists t, lineage h x (path ++ t).
Proof.
  intros Hw. induction fuel as [|fuel IH]; intros r path Hl Hf x.
  { destruct (lineage_creation _ _ _ Hl) as [c Hc]. apply lookup_lt_Some in Hc. lia. }
  destruct (lineage_creation _ _ _ Hl) as [c Hc]. cbn [terms]. rewrite heap_lookup, Hc. cbn [fmap option_fmap option_map obj r_sub].
  destruct (children h r) as [|a l] eqn:He.
  - rewrite elem_of_list_singleton. split.
    + intros ->. split; [by apply childless_iff|]. exists []. by rewrite app_nil_r.
    + intros [_ [t Ht]]. destruct t as [|i t].
      * rewrite app_nil_r in Ht. destruct (lineage_last _ _ _ Hl) as [p1 ->].
        destruct (lineage_last _ _ _ Ht) as [p2 Hp2]. by apply app_inj_tail in Hp2 as [_ ->].
      * destruct (lineage_split h x _ path r (i :: t) Hw Hl Ht) as (j & t' & _ & Hin); [done|done|].
        rewrite He in Hin. by apply elem_of_nil in Hin.
  - rewrite <- He. rewrite elem_of_concat'. split.
    + intros (ls & Hls & Hx). apply elem_of_list_fmap in Hls as (i & -> & Hi).
      pose proof Hi as Hi'. apply elem_of_children in Hi as (ci & Hci & Hpi).
      destruct (wf_parent h Hw _ _ _ Hci Hpi) as [Hlt _].
      apply (IH i (path ++ [i])) in Hx as [Hx1 [t Ht]]; [|by eapply lineage_down|lia].
      split; [done|]. exists (i :: t). by rewrite <- app_assoc in Ht.
    + intros [Hx [t Ht]]. destruct t as [|i t].
      * rewrite app_nil_r in Ht. destruct (lineage_last _ _ _ Hl) as [p1 ->].
        destruct (lineage_last _ _ _ Ht) as [p2 Hp2]. apply app_inj_tail in Hp2 as [_ ->].
        apply childless_iff in Hx. congruence.
      * destruct (lineage_split h x _ path r (i :: t) Hw Hl Ht) as (j & t' & Hj & Hin); [done|done|]. simplify_eq.
        exists (terms fuel (heap_of h) j). split; [by apply elem_of_list_fmap_1|].
        pose proof Hin as Hi'. apply elem_of_children in Hi' as (ci & Hci & Hpi).
        destruct (wf_parent h Hw _ _ _ Hci Hpi) as [Hlt _].
        apply (IH j (path ++ [j])); [by eapply lineage_down|lia|]. split; [done|].
        exists t'. by rewrite <- app_assoc.
Qed.

Definition ltl h (x y : nat) : Prop := exists p q, lineage h x p /\ lineage h y q /\ lex p q.

Lemma sorted_app {B} (R : B -> B -> Prop) l1 l2 :
  StronglySorted R l1 -> StronglySorted R l2 -> (forall x y, x ∈ l1 -> y ∈ l2 -> R x y) ->
  StronglySorted R (l1 ++ l2).
Proof.
  intros H1 H2 H. induction H1 as [|x l1 H1 IH Hx]; simpl; [done|]. constructor.
  - apply IH. intros a b Ha Hb. apply H; [by right|done].
  - apply Forall_app. split; [done|]. apply Forall_forall. intros y Hy. apply H; [left|done].
Qed.
Lemma terms_sorted h : wf h -> forall fuel r path, lineage h r path -> length (creations h) < fuel + r ->
  StronglySorted (ltl h) (terms fuel (heap_of h) r).
Proof.
  intros Hw. induction fuel as [|fuel IH]; intros r path Hl Hf; [constructor|].
  destruct (lineage_creation _ _ _ Hl) as [c Hc]. cbn [terms]. rewrite heap_lookup, Hc. cbn [fmap option_fmap option_map obj r_sub].
  destruct (children h r) as [|a l] eqn:He; [repeat constructor|]. rewrite <- He. clear He.
  assert (Hall : forall i, i ∈ children h r -> r < i /\ lineage h i (path ++ [i])).
  { intros i Hi. apply elem_of_children in Hi as (ci & Hi & Hp).
    split; [by apply (wf_parent h Hw _ _ _ Hi Hp)|by eapply lineage_down]. }
  pose proof (children_sorted h r) as Hs. induction Hs as [|i cs Hs IHs Hi]; simpl; [constructor|].
  apply sorted_app.
  - destruct (Hall i) as [Hlt Hli]; [left|]. eapply IH; [exact Hli|lia].
  - apply IHs. intros j Hj. apply Hall. by right.
  - intros x y Hx Hy. apply elem_of_concat' in Hy as (ls & Hls & Hy). apply elem_of_list_fmap in Hls as (j & -> & Hj).
    destruct (Hall i) as [Hlti Hli]; [left|]. destruct (Hall j) as [Hltj Hlj]; [by right|].
    apply (terms_elem h Hw fuel i _ Hli) in Hx as [_ [t1 Hx]]; [|lia].
    apply (terms_elem h Hw fuel j _ Hlj) in Hy as [_ [t2 Hy]]; [|lia].
    rewrite <- app_assoc in Hx, Hy. exists (path ++ i :: t1), (path ++ j :: t2). split_and!; [done|done|].
    constructor. rewrite Forall_forall in Hi. by apply Hi.
Qed.

Lemma lex_irrefl p : ~ lex p p.
Proof. intros Hl. inversion Hl as [c a b s t Hab Hq]. apply app_inv_head in H. simplify_eq. lia. Qed.
Lemma sorted_nodup h ts : StronglySorted (ltl h) ts -> NoDup ts.
Proof.
  induction 1 as [|x l H1 IH Hx]; constructor; [|done]. intros Hin. rewrite Forall_forall in Hx.
  destruct (Hx _ Hin) as (p & q & Hp & Hq & Hl). rewrite (lineage_fun _ _ _ _ Hp Hq) in Hl. by apply lex_irrefl in Hl.
Qed.

End Dump.
