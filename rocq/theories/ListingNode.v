(** The listing of the release tree. *)
From Coq Require Import Sorted.
From Verif Require Import Base GoStr Strconv Pattern Tree GoStrFacts TreeSpec ListFacts TreeFacts TreeMatch TreeTop Router RouterSpec RouterFacts
  RouterDump MethodFacts HandlerFacts RouterProps Listing ListingSpec ListingFacts ListingTree.

Section Node.
Context {A : Type}.
Local Notation node := (node (handler A)).
Local Notation enode := (enode (handler A)).
Notation titems := (list (nat * gostr * option nat)).

Lemma node_nested (P : node -> Prop) :
  (forall p subs ends, Forall P subs -> P (Node p subs ends)) -> forall n, P n.
Proof.
  intros Hn. fix IH 1. intros [p subs ends]. apply Hn.
  induction subs as [|s subs IHs]; constructor; [apply IH|exact IHs].
Qed.

(** ** The items *)
Definition end_items (root : bool) (d : nat) (l : list enode) : titems :=
  omap (fun v : enode => if root && seqb (p_raw (e_pat v)) [] then None
                         else Some (d, p_raw (e_pat v), Some (length (e_handlers v)))) l.
Fixpoint node_items (root : bool) (d : nat) (n : node) : titems :=
  let '(Node _ subs ends) := n in
  (fix go (l : list node) : titems :=
     match l with
     | [] => []
     | s :: l' => (d, p_raw (n_pat s), None) :: node_items false (S d) s ++ go l'
     end) subs ++ end_items root d ends.
Definition sub_items (d : nat) (l : list node) : titems :=
  concat (map (fun s => (d, p_raw (n_pat s), None) :: node_items false (S d) s) l).
Lemma node_items_eq root d p subs ends :
  node_items root d (Node p subs ends) = sub_items d subs ++ end_items root d ends.
Proof.
  cbn [node_items]. f_equal. unfold sub_items. induction subs as [|s l IH]; [done|]. cbn [map concat].
  by rewrite IH.
Qed.

Definition disp (it : nat * gostr * option nat) : nat * gostr :=
  let '(d, label, o) := it in
  (d, label ++ match o with Some n => L " [" ++ fmt_int 3 n ++ L "]" | None => [] end).
Lemma disp_deep root n : forall d, Forall (fun it => d <= fst it) (map disp (node_items root d n)).
Proof.
  revert root. induction n as [p subs ends IH] using node_nested. intros root d.
  rewrite node_items_eq, map_app. apply Forall_app. split.
  - induction IH as [|s l Hs Hl IHl]; [constructor|]. unfold sub_items. cbn [map concat]. fold (sub_items d l).
    rewrite map_app. apply Forall_app. split; [|done]. cbn [map]. constructor; [done|].
    eapply Forall_impl; [apply Hs|]. intros it Hit. simpl in Hit. lia.
  - apply Forall_forall. intros it Hit. apply elem_of_list_fmap in Hit as (x & -> & Hx).
    apply elem_of_list_omap in Hx as (v & _ & Hv). destruct (root && _); [done|]. by injection Hv as <-.
Qed.

(** ** Drawing *)
Lemma print_tree_eq root p subs ends prefix :
  printTreeNode root (Node p subs ends) prefix =
  (fix go (l : list node) : gostr :=
     match l with
     | [] => []
     | s :: l' =>
         let more := match l' with [] => 0 <? length ends | _ => true end in
         (print_inner (norm prefix ++ (if more then _PREFIX_BRANCH else _PREFIX_LEAF)) s ++
          printTreeNode false s (norm prefix ++ (if more then _PREFIX_TRUNK else _PREFIX_EMP))) ++ go l'
     end) subs ++ print_ends root (norm prefix) ends.
Proof.
  cbn [printTreeNode]. fold (norm prefix). f_equal. induction subs as [|s l IH]; [done|].
  rewrite <- IH. f_equal. destruct l; [|done]. by destruct (0 <? length ends).
Qed.

Lemma lines_cons t ts : lines (t :: ts) = t ++ newline ++ lines ts.
Proof. unfold lines. cbn [map concat]. by rewrite <- app_assoc. Qed.

Lemma print_ends_sketch root cells ends : Forall cell cells ->
  exists lns, Forall2 sketch (map disp (end_items root (length cells) ends)) lns /\
    print_ends root (concat cells) ends = lines lns.
Proof.
  intros Hc. induction ends as [|v l IH]; [exists []; split; [constructor|done]|]. destruct IH as (lns & Hl & Heq).
  cbn [print_ends]. rewrite Heq. unfold end_items. rewrite omap_cons. fold (end_items root (length cells) l).
  destruct (root && _); [by exists lns|].
  set (knee := if match l with [] => true | _ => false end then _PREFIX_LEAF else _PREFIX_BRANCH).
  exists ((concat cells ++ knee ++ L " " ++ p_raw (e_pat v) ++ L " [" ++ fmt_int 3 (length (e_handlers v)) ++ L "]") :: lns).
  split.
  - cbn [map]. constructor; [|done]. exists cells, knee. split_and!; [done| | |].
    + eapply Forall_impl; [exact Hc|]. intros c [->| ->]; [by left|by right].
    + unfold knee. destruct l; [by right|by left].
    + done.
  - rewrite lines_cons. unfold print_leaf. by rewrite <- !app_assoc.
Qed.

Lemma print_tree_sketch n : forall root cells prefix, Forall cell cells -> norm prefix = concat cells ->
  exists lns, Forall2 sketch (map disp (node_items root (length cells) n)) lns /\
    printTreeNode root n prefix = lines lns.
Proof.
  induction n as [p subs ends IH] using node_nested. intros root cells prefix Hc Hn.
  rewrite print_tree_eq, node_items_eq, Hn, map_app.
  destruct (print_ends_sketch root cells ends Hc) as (le & Hle & ->).
  assert (exists ls, Forall2 sketch (map disp (sub_items (length cells) subs)) ls /\
    (fix go (l : list node) : gostr :=
     match l with
     | [] => []
     | s :: l' =>
         let more := match l' with [] => 0 <? length ends | _ => true end in
         (print_inner (concat cells ++ (if more then _PREFIX_BRANCH else _PREFIX_LEAF)) s ++
          printTreeNode false s (concat cells ++ (if more then _PREFIX_TRUNK else _PREFIX_EMP))) ++ go l'
     end) subs = lines ls) as (ls & Hls & ->).
  { clear Hn. induction IH as [|s l Hs Hl (ls & Hls & Heq)]; [exists []; split; [constructor|done]|]. rewrite Heq. clear Heq.
    set (more := match l with [] => 0 <? length ends | _ => true end). cbv zeta.
    set (c := if more then _PREFIX_TRUNK else _PREFIX_EMP).
    assert (cell c) as Hcc by (unfold c; destruct more; [by left|by right]).
    destruct (Hs false (cells ++ [c]) (concat cells ++ c)) as (lb & Hlb & Heqb).
    - apply Forall_app. split; [done|]. by constructor.
    - rewrite norm_snoc by done. rewrite concat_app. cbn [concat]. by rewrite app_nil_r.
    - rewrite app_length in Hlb. cbn [length] in Hlb. rewrite Nat.add_1_r in Hlb.
      set (knee := if more then _PREFIX_BRANCH else _PREFIX_LEAF).
      exists ((concat cells ++ knee ++ L " " ++ p_raw (n_pat s)) :: lb ++ ls). split.
      + unfold sub_items. cbn [map concat]. fold (sub_items (length cells) l). rewrite map_app. cbn [map app].
        constructor; [|by apply Forall2_app]. exists cells, knee. split_and!; [done| | |].
        * eapply Forall_impl; [exact Hc|]. intros x [->| ->]; [by left|by right].
        * unfold knee. destruct more; [by left|by right].
        * cbn [disp snd]. by rewrite app_nil_r.
      + rewrite lines_cons, lines_app, <- Heqb. unfold print_inner. rewrite <- !app_assoc. reflexivity. }
  exists (ls ++ le). split; [by apply Forall2_app|]. by rewrite lines_app.
Qed.

(** exact, unless the leaf of "/" is passed over *)
Lemma print_ends_draw root d after ends : shallow d after -> (root = true -> forall v, v ∈ ends -> p_raw (e_pat v) <> []) ->
  print_ends root (indent d after) ends = draw_in after (map disp (end_items root d ends)).
Proof.
  intros Hs. induction ends as [|v l IH]; intros Hr; [done|].
  cbn [print_ends]. unfold end_items. rewrite omap_cons. fold (end_items root d l).
  assert (root && seqb (p_raw (e_pat v)) [] = false) as ->.
  { destruct root; [|done]. cbn [andb]. apply seqb_false. apply Hr; [done|left]. }
  rewrite IH by (intros H v' Hv'; apply Hr; [done|by right]).
  cbn [map draw_in disp].
  assert (Hd : Forall (fun it => d <= fst it) (map disp (end_items root d l))).
  { apply Forall_forall. intros it Hit. apply elem_of_list_fmap in Hit as (x & -> & Hx).
    apply elem_of_list_omap in Hx as (v' & _ & Hv). destruct (root && _); [done|]. by injection Hv as <-. }
  rewrite indent_skip by done.
  assert (goes_on d (map disp (end_items root d l) ++ after) = negb (match l with [] => true | _ => false end)) as ->.
  { destruct l as [|v' l]; [by eapply shallow_stop|]. unfold end_items. rewrite omap_cons.
    assert (root && seqb (p_raw (e_pat v')) [] = false) as ->.
    { destruct root; [|done]. cbn [andb]. apply seqb_false. apply Hr; [done|right; left]. }
    cbn [map disp app goes_on]. by rewrite Nat.eqb_refl. }
  unfold print_leaf. rewrite <- !app_assoc. by destruct l.
Qed.

Lemma print_tree_draw n : forall root d after prefix, shallow d after -> norm prefix = indent d after ->
  (root = true -> forall v, v ∈ n_ends n -> p_raw (e_pat v) <> []) ->
  printTreeNode root n prefix = draw_in after (map disp (node_items root d n)).
Proof.
  induction n as [p subs ends IH] using node_nested. intros root d after prefix Hs Hn Hr. cbn [n_ends] in Hr.
  rewrite print_tree_eq, node_items_eq, Hn, map_app, draw_in_app. rewrite print_ends_draw by done.
  f_equal. clear Hn prefix.
  assert (He : Forall (fun it => d <= fst it) (map disp (end_items root d ends))).
  { apply Forall_forall. intros it Hit. apply elem_of_list_fmap in Hit as (x & -> & Hx).
    apply elem_of_list_omap in Hx as (v' & _ & Hv). destruct (root && _); [done|]. by injection Hv as <-. }
  assert (Hg : goes_on d (map disp (end_items root d ends) ++ after) = (0 <? length ends)).
  { destruct ends as [|v l]; [by eapply shallow_stop|]. unfold end_items. rewrite omap_cons.
    assert (root && seqb (p_raw (e_pat v)) [] = false) as ->.
    { destruct root; [|done]. cbn [andb]. apply seqb_false. apply Hr; [done|left]. }
    cbn [map disp app goes_on]. by rewrite Nat.eqb_refl. }
  assert (Hsh : shallow (S d) (map disp (end_items root d ends) ++ after)).
  { destruct ends as [|v l]; [destruct after as [|[k lb] after]; [done|]; cbn [shallow] in Hs; cbn; lia|].
    unfold end_items. rewrite omap_cons.
    assert (root && seqb (p_raw (e_pat v)) [] = false) as ->.
    { destruct root; [|done]. cbn [andb]. apply seqb_false. apply Hr; [done|left]. }
    cbn [map disp app shallow]. lia. }
  rewrite <- (indent_skip d _ after He).
  revert Hg Hsh. generalize (map disp (end_items root d ends) ++ after). intros aft Hg Hsh.
  clear Hs Hr He after.
  induction IH as [|s l Hs Hl IHl]; [done|].
  rewrite IHl. unfold sub_items. cbn [map concat]. fold (sub_items d l). rewrite map_app, draw_in_app.
  f_equal. cbv zeta. cbn [map disp draw_in].
  set (rest := map disp (sub_items d l) ++ aft).
  assert (Hd1 : Forall (fun it => d <= fst it) (map disp (sub_items d l))).
  { clear. induction l as [|s l IH]; [constructor|]. unfold sub_items. cbn [map concat]. fold (sub_items d l). rewrite map_app.
    apply Forall_app. split; [|done]. cbn [map]. constructor; [done|].
    eapply Forall_impl; [apply disp_deep|]. intros it Hit. simpl in Hit. lia. }
  assert (Hd2 : Forall (fun it => d < fst it) (map disp (node_items false (S d) s))).
  { eapply Forall_impl; [apply disp_deep|]. intros it Hit. simpl in Hit. lia. }
  assert (Hmore : goes_on d rest = match l with [] => 0 <? length ends | _ => true end).
  { unfold rest. destruct l as [|s' l]; [done|]. cbn. by rewrite Nat.eqb_refl. }
  assert (Hsr : shallow (S d) rest).
  { unfold rest. destruct l as [|s' l]; [done|]. cbn. lia. }
  rewrite (indent_skip d (map disp (node_items false (S d) s))) by
    (eapply Forall_impl; [exact Hd2|]; intros it Hit; simpl in Hit; lia).
  rewrite (goes_on_skip d) by done. rewrite Hmore.
  assert (Hir : indent d rest = indent d aft) by (unfold rest; by rewrite indent_skip).
  rewrite Hir. set (more := match l with [] => 0 <? length ends | _ => true end) in *.
  rewrite (Hs false (S d) rest); [|done| |done].
  - unfold print_inner. rewrite app_nil_r. by rewrite <- !app_assoc.
  - rewrite indent_S, Hir, Hmore. destruct (indent_cells d aft) as (cells & -> & _ & Hcs).
    apply norm_snoc; [done|]. destruct more; [by left|by right].
Qed.

(** ** Reading back *)
Definition under (p : pat) (qc : list pat * option nat) : list pat * option nat := (p :: fst qc, snd qc).
Fixpoint node_paths (n : node) : list (list pat * option nat) :=
  let '(Node _ subs ends) := n in
  (fix go (l : list node) : list (list pat * option nat) :=
     match l with
     | [] => []
     | s :: l' => ([n_pat s], None) :: map (under (n_pat s)) (node_paths s) ++ go l'
     end) subs ++ map (fun v : enode => ([e_pat v], Some (length (e_handlers v)))) ends.
Definition sub_paths (s : node) : list (list pat * option nat) :=
  ([n_pat s], None) :: map (under (n_pat s)) (node_paths s).
Lemma node_paths_eq p subs ends : node_paths (Node p subs ends) =
  concat (map sub_paths subs) ++ map (fun v : enode => ([e_pat v], Some (length (e_handlers v)))) ends.
Proof. cbn [node_paths]. f_equal. induction subs as [|s l IH]; [done|]. cbn [map concat]. by rewrite IH. Qed.

Definition shows (c : list gostr) (qc : list pat * option nat) : list gostr * option nat := (c ++ map p_raw (fst qc), snd qc).

Lemma reading_ends d ends : forall stack rest, d <= length stack ->
  exists stack', take d stack' = take d stack /\ d <= length stack' /\
    reading stack (end_items false d ends ++ rest) =
    map (shows (take d stack)) (map (fun v : enode => ([e_pat v], Some (length (e_handlers v)))) ends) ++ reading stack' rest.
Proof.
  induction ends as [|v l IH]; intros stack rest Hd; [exists stack; done|].
  unfold end_items. rewrite omap_cons. fold (end_items false d l). cbn [andb app reading].
  assert (Ht : take d (take d stack ++ [p_raw (e_pat v)]) = take d stack).
  { rewrite take_app_alt; [done|]. rewrite take_length. lia. }
  destruct (IH (take d stack ++ [p_raw (e_pat v)]) rest) as (stack' & H1 & H2 & H3).
  { rewrite app_length, take_length. simpl. lia. }
  exists stack'. split; [congruence|]. split; [done|]. rewrite H3, Ht. done.
Qed.
Lemma reading_node n : forall d stack rest, d <= length stack ->
  exists stack', take d stack' = take d stack /\ d <= length stack' /\
    reading stack (node_items false d n ++ rest) =
    map (shows (take d stack)) (node_paths n) ++ reading stack' rest.
Proof.
  induction n as [p subs ends IH] using node_nested. intros d stack rest Hd.
  rewrite node_items_eq, node_paths_eq, map_app.
  assert (Hsub : forall stack rest, d <= length stack -> exists stack', take d stack' = take d stack /\ d <= length stack' /\
    reading stack (sub_items d subs ++ rest) =
    map (shows (take d stack)) (concat (map sub_paths subs)) ++ reading stack' rest).
  { clear stack rest Hd. induction IH as [|s l Hs Hl IHl]; intros stack rest Hd; [exists stack; done|].
    unfold sub_items. cbn [map concat]. fold (sub_items d l). rewrite <- app_assoc. cbn [app reading].
    set (st := take d stack ++ [p_raw (n_pat s)]).
    assert (Hl1 : length st = S d) by (unfold st; rewrite app_length, take_length; simpl; lia).
    destruct (Hs (S d) st (sub_items d l ++ rest) ltac:(lia)) as (st1 & H1 & H2 & H3).
    assert (Ht : take d st1 = take d stack).
    { assert (Hm : forall x : list gostr, take d x = take d (take (S d) x)) by (intros x; by rewrite take_take, Nat.min_l by lia).
      rewrite (Hm st1), H1, <- Hm. unfold st. rewrite take_app_alt; [done|]. rewrite take_length. lia. }
    destruct (IHl st1 rest ltac:(lia)) as (st2 & H4 & H5 & H6).
    exists st2. split; [congruence|]. split; [done|].
    rewrite H3, H6, Ht, map_app. unfold sub_paths at 2. cbn [map app]. f_equal.
    rewrite map_map, <- app_assoc. f_equal. apply map_ext. intros [q c]. unfold shows, under. cbn [fst snd map].
    f_equal. rewrite <- Hl1, firstn_all. unfold st. by rewrite <- app_assoc. }
  destruct (Hsub stack (end_items false d ends ++ rest) Hd) as (st1 & H1 & H2 & H3).
  destruct (reading_ends d ends st1 rest H2) as (st2 & H4 & H5 & H6).
  exists st2. split; [congruence|]. split; [done|]. rewrite <- !app_assoc, H3, H6, H1. done.
Qed.

Definition real_end (v : enode) : bool := negb (seqb (p_raw (e_pat v)) []).
Lemma root_items d p subs ends :
  node_items true d (Node p subs ends) = node_items false d (Node p subs (List.filter real_end ends)).
Proof.
  rewrite !node_items_eq. f_equal. induction ends as [|v l IH]; [done|].
  unfold end_items. rewrite omap_cons. fold (end_items true d l). cbn [List.filter]. unfold real_end at 1. cbn [andb].
  destruct (seqb (p_raw (e_pat v)) []); cbn [negb]; [done|]. rewrite IH.
  unfold end_items. rewrite (omap_cons _ v). cbn [andb]. done.
Qed.

(** membership *)
Lemma node_paths_elem p subs ends q c : (q, c) ∈ node_paths (Node p subs ends) <->
  (exists s, s ∈ subs /\ ((q = [n_pat s] /\ c = None) \/ exists q', q = n_pat s :: q' /\ (q', c) ∈ node_paths s)) \/
  (exists v, v ∈ ends /\ q = [e_pat v] /\ c = Some (length (e_handlers v))).
Proof.
  rewrite node_paths_eq, elem_of_app, elem_of_concat'. apply Morphisms_Prop.or_iff_morphism; split.
  - intros (l & Hl & Hq). apply elem_of_list_fmap in Hl as (s & -> & Hs). exists s. split; [done|].
    unfold sub_paths in Hq. apply elem_of_cons in Hq as [Heq|Hq]; [left; by injection Heq as -> ->|].
    apply elem_of_list_fmap in Hq as ([q' c'] & Heq & Hq). injection Heq as -> ->. eauto.
  - intros (s & Hs & Hq). exists (sub_paths s). split; [by apply elem_of_list_fmap_1|]. unfold sub_paths. apply elem_of_cons.
    destruct Hq as [[-> ->]|(q' & -> & Hq)]; [by left|]. right. apply elem_of_list_fmap. by exists (q', c).
  - intros Hq. apply elem_of_list_fmap in Hq as (v & Heq & Hv). injection Heq as -> ->. eauto.
  - intros (v & Hv & -> & ->). apply elem_of_list_fmap. eauto.
Qed.
Lemma node_paths_nonempty n q c : (q, c) ∈ node_paths n -> q <> [].
Proof.
  destruct n as [p subs ends]. rewrite node_paths_elem. intros [(s & _ & [[-> _]|(q' & -> & _)])|(v & _ & -> & _)]; done.
Qed.
Lemma real_paths p subs ends q c :
  (q, c) ∈ node_paths (Node p subs (List.filter real_end ends)) <->
  (q, c) ∈ node_paths (Node p subs ends) /\ ~ (map p_raw q = [[]] /\ c <> None).
Proof.
  rewrite !node_paths_elem. split.
  - intros [(s & Hs & Hq)|(v & Hv & -> & ->)].
    + split; [left; eauto|]. intros [Hr Hc]. destruct Hq as [[-> ->]|(q' & -> & Hq)]; [done|].
      apply node_paths_nonempty in Hq. by destruct q'.
    + apply elem_of_list_In, List.filter_In in Hv as [Hv Hr]. apply elem_of_list_In in Hv. split; [right; eauto|].
      unfold real_end in Hr. apply negb_true_iff, seqb_false in Hr. intros [Heq _]. cbn [map] in Heq. congruence.
  - intros [[Hs|(v & Hv & -> & ->)] Hne]; [by left|]. right. exists v. split; [|done].
    apply elem_of_list_In, List.filter_In. split; [by apply elem_of_list_In|].
    unfold real_end. apply negb_true_iff, seqb_false. intros E. apply Hne. cbn [map]. by rewrite E.
Qed.

(** ** The paths of a represented tree *)
Notation tbl := (list (list pat * (nat * list (handler A)))).

Lemma find_first_elem (q : list pat) (t : tbl) pl : find_first q t = Some pl -> (q, pl) ∈ t.
Proof.
  unfold find_first. induction t as [|[q' pl'] t IH]; [done|]. rewrite omap_cons. cbn [fst snd].
  case_decide; [intros [= ->]; subst; left|]. intros Hf. right. by apply IH.
Qed.
Lemma find_first_is (q : list pat) (t : tbl) pl : (q, pl) ∈ t -> is_Some (find_first q t).
Proof.
  unfold find_first. induction t as [|[q' pl'] t IH]; [by intros ?%elem_of_nil|]. rewrite omap_cons. cbn [fst snd].
  case_decide; [intros _; by eexists|]. intros Hin. apply elem_of_cons in Hin as [Heq|Hin]; [congruence|]. by apply IH.
Qed.

Lemma node_paths_leaf n : forall t, rep n t -> forall q c,
  (q, Some c) ∈ node_paths n <-> q <> [] /\ exists id hs, find_first q t = Some (id, hs) /\ c = length hs.
Proof.
  induction n as [p subs ends IH] using node_nested. intros t Hrep q c.
  rewrite Forall_forall in IH. rewrite node_paths_elem.
  assert (Hsub : forall s, s ∈ subs -> rep s (tails (n_pat s) t)) by (inversion Hrep; subst; done).
  split.
  - intros [(s & Hs & [[_ ?]|(q' & -> & Hq)])|(v & Hv & -> & Hc)]; [done| |].
    + split; [done|]. apply (IH s Hs _ (Hsub s Hs)) in Hq as (Hne & id & hs & Hf & ->).
      exists id, hs. split; [|done]. by rewrite <- find_first_tails.
    + injection Hc as ->. split; [done|]. apply (rep_ends _ _ _ Hrep), firsts_single_first in Hv. eauto.
  - intros (Hne & id & hs & Hf & ->). pose proof (find_first_elem _ _ _ Hf) as Hin.
    destruct q as [|q0 q]; [done|]. destruct q as [|q1 q].
    + right. apply (elem_of_list_fmap_1 fst) in Hin. cbn [fst] in Hin.
      destruct (route_end _ _ _ Hrep Hin) as (e & He & Hep). exists e. split; [done|].
      apply (rep_ends _ _ _ Hrep), firsts_single_first in He as Hff. rewrite Hep, Hf in Hff. injection Hff as -> ->.
      by rewrite <- Hep.
    + left. assert (q0 ∈ map n_pat subs) as Hq0.
      { apply (rep_subs _ _ _ Hrep). apply elem_heads. eauto. }
      apply elem_of_list_fmap in Hq0 as (s & -> & Hs). exists s. split; [done|]. right. exists (q1 :: q). split; [done|].
      apply (IH s Hs _ (Hsub s Hs)). split; [done|]. exists id, hs. split; [|done]. by rewrite find_first_tails.
Qed.
Lemma node_paths_inner n : forall t, rep n t -> forall q,
  (q, None) ∈ node_paths n <-> q <> [] /\ exists x r pl, (q ++ x :: r, pl) ∈ t.
Proof.
  induction n as [p subs ends IH] using node_nested. intros t Hrep q.
  rewrite Forall_forall in IH. rewrite node_paths_elem.
  assert (Hsub : forall s, s ∈ subs -> rep s (tails (n_pat s) t)) by (inversion Hrep; subst; done).
  split.
  - intros [(s & Hs & [[-> _]|(q' & -> & Hq)])|(v & Hv & -> & Hc)]; [| |done].
    + split; [done|]. assert (n_pat s ∈ map n_pat subs) as Hp by (by apply elem_of_list_fmap_1).
      by apply (rep_subs _ _ _ Hrep), elem_heads in Hp.
    + split; [done|]. apply (IH s Hs _ (Hsub s Hs)) in Hq as (Hne & x & r & pl & Hin).
      apply elem_tails in Hin as [Hin _]. eauto.
  - intros (Hne & x & r & pl & Hin). left. destruct q as [|q0 q]; [done|].
    assert (q0 ∈ map n_pat subs) as Hq0.
    { apply (rep_subs _ _ _ Hrep). apply elem_heads. destruct q as [|q1 q]; simpl in Hin; eauto. }
    apply elem_of_list_fmap in Hq0 as (s & -> & Hs). exists s. split; [done|].
    destruct q as [|q1 q]; [by left|]. right. exists (q1 :: q). split; [done|].
    apply (IH s Hs _ (Hsub s Hs)). split; [done|]. exists x, r, pl. by apply elem_tails.
Qed.

Lemma node_paths_nodup n : forall t, rep n t -> NoDup (node_paths n).
Proof.
  induction n as [p subs ends IH] using node_nested. intros t Hrep. rewrite Forall_forall in IH.
  assert (Hsub : forall s, s ∈ subs -> NoDup (node_paths s)).
  { intros s Hs. apply (IH s Hs (tails (n_pat s) t)). inversion Hrep; subst. eauto. }
  assert (Hnd : NoDup (map n_pat subs)) by (by apply (rep_subs_NoDup _ _ Hrep)).
  assert (Hends : NoDup (map e_pat ends)).
  { apply NoDup_fmap_2_strong.
    - intros [p1 i1 h1] [p2 i2 h2] H1 H2. cbn [e_pat]. intros <-.
      apply (rep_ends _ _ _ Hrep), firsts_single_first in H1. apply (rep_ends _ _ _ Hrep), firsts_single_first in H2.
      cbn [e_pat e_id e_handlers] in H1, H2. rewrite H1 in H2. by injection H2 as -> ->.
    - inversion Hrep as [? ? ? ? _ He _]; subst. apply order_NoDup. apply NoDup_fmap_2.
      + intros [p1 [i1 h1]] [p2 [i2 h2]] Heq. by injection Heq as -> -> ->.
      + apply (NoDup_fmap_1 fst). apply (firsts_NoDup fst). }
  rewrite node_paths_eq. apply NoDup_app. split_and!.
  - clear Hrep Hends IH. induction subs as [|s l IHl]; [constructor|]. cbn [map concat].
    cbn [map] in Hnd. apply NoDup_cons in Hnd as [Hn Hnd]. apply NoDup_app. split_and!.
    + unfold sub_paths. constructor.
      * intros Hin. apply elem_of_list_fmap in Hin as ([q c] & Heq & Hin). injection Heq as <- _.
        by apply node_paths_nonempty in Hin.
      * apply NoDup_fmap_2; [|apply Hsub; left]. intros [a b] [a' b'] Heq. by injection Heq as -> ->.
    + intros [q c] Hq Hq'. apply Hn. assert (head q = Some (n_pat s)) as Hh.
      { unfold sub_paths in Hq. apply elem_of_cons in Hq as [Heq|Hq]; [by injection Heq as -> _|].
        apply elem_of_list_fmap in Hq as (x & Heq & _). by injection Heq as -> _. }
      apply elem_of_concat' in Hq' as (k & Hk & Hy). apply elem_of_list_fmap in Hk as (s' & -> & Hs').
      assert (head q = Some (n_pat s')) as Hh'.
      { unfold sub_paths in Hy. apply elem_of_cons in Hy as [Heq|Hy]; [by injection Heq as -> _|].
        apply elem_of_list_fmap in Hy as (x & Heq & _). by injection Heq as -> _. }
      apply elem_of_list_fmap. exists s'. split; [congruence|done].
    + apply IHl; [|done]. intros s' Hs'. apply Hsub. by right.
  - intros [q c] Hq Hq'. apply elem_of_list_fmap in Hq' as (v & Heq & _). injection Heq as -> ->.
    apply elem_of_concat' in Hq as (k & Hk & Hin). apply elem_of_list_fmap in Hk as (s & -> & _).
    unfold sub_paths in Hin. apply elem_of_cons in Hin as [Heq|Hin]; [done|].
    apply elem_of_list_fmap in Hin as ([q' c'] & Heq & Hin). injection Heq as _ Heq _. cbn [fst] in Heq. subst q'.
    by apply node_paths_nonempty in Hin.
  - apply (NoDup_fmap_1 (fun qc : list pat * option nat => fst qc)). rewrite <- list_fmap_compose.
    apply (NoDup_fmap_1 (fun q : list pat => match q with [x] => Some x | _ => None end)). rewrite <- list_fmap_compose.
    assert (Hm : forall l : list enode, (((fun q : list pat => match q with [x] => Some x | _ => None end) ∘
      ((fun qc : list pat * option nat => fst qc) ∘ (fun v : enode => ([e_pat v], Some (length (e_handlers v)))))) <$> l) = map Some (map e_pat l)).
    { intros l. induction l as [|v l IHl]; [done|]. cbn [fmap list_fmap map]. f_equal; done. }
    rewrite Hm. apply NoDup_fmap_2; [|done]. intros a b. by intros [= ->].
Qed.
End Node.
