(** The listings that are drawn as trees. *)
From Coq Require Import Sorted.
From Verif Require Import Base GoStr Strconv Pattern Tree GoStrFacts TreeSpec ListFacts TreeFacts TreeTop Router RouterSpec RouterFacts
  RouterDump MethodFacts HandlerFacts RouterProps Listing ListingSpec ListingFacts.

(** ** Drawing in parts *)
Notation items := (list (nat * gostr)).

(** the columns in front of an item of depth d that is followed by [after] *)
Definition indent (d : nat) (after : items) : gostr :=
  concat (map (fun j => if goes_on j after then _PREFIX_TRUNK else _PREFIX_EMP) (seq 0 d)).
(** the drawing of items that are followed by others *)
Fixpoint draw_in (after its : items) : gostr :=
  match its with
  | [] => []
  | (d, label) :: rest =>
      indent d (rest ++ after) ++ (if goes_on d (rest ++ after) then _PREFIX_BRANCH else _PREFIX_LEAF) ++
      L " " ++ label ++ newline ++ draw_in after rest
  end.
Lemma draw_in_nil its : draw_in [] its = drawing its.
Proof. induction its as [|[d label] rest IH]; [done|]. cbn [draw_in drawing]. by rewrite app_nil_r, IH. Qed.
Lemma draw_in_app after a b : draw_in after (a ++ b) = draw_in (b ++ after) a ++ draw_in after b.
Proof.
  induction a as [|[d label] a IH]; [done|]. cbn [app draw_in]. rewrite IH, <- !app_assoc. done.
Qed.

(** items that are all deeper than j do not matter for level j *)
Lemma goes_on_skip j its after : Forall (fun it => j < fst it) its -> goes_on j (its ++ after) = goes_on j after.
Proof.
  induction 1 as [|[d label] its Hd Hf IH]; [done|]. cbn [fst] in Hd. cbn [app goes_on].
  destruct (Nat.eqb_spec d j); [lia|]. destruct (Nat.ltb_spec d j); [lia|]. done.
Qed.
Lemma indent_skip d its after : Forall (fun it => d <= fst it) its -> indent d (its ++ after) = indent d after.
Proof.
  intros Hf. unfold indent. f_equal. apply map_ext_in. intros j Hj. apply in_seq in Hj.
  rewrite goes_on_skip; [done|]. eapply Forall_impl; [exact Hf|]. intros it Hit. simpl in Hit. lia.
Qed.
Lemma indent_S d after :
  indent (S d) after = indent d after ++ (if goes_on d after then _PREFIX_TRUNK else _PREFIX_EMP).
Proof. unfold indent. rewrite seq_S, map_app, concat_app. cbn [map concat]. by rewrite app_nil_r. Qed.

(** [after] begins outside of level d *)
Definition shallow (d : nat) (after : items) : Prop :=
  match after with [] => True | (k, _) :: _ => k < d end.
Lemma shallow_stop d j after : shallow d after -> d <= j -> goes_on j after = false.
Proof.
  destruct after as [|[k label] after]; [done|]. cbn [shallow goes_on]. intros Hk Hj.
  destruct (Nat.eqb_spec k j); [lia|]. destruct (Nat.ltb_spec k j); [done|lia].
Qed.

(** ** Replacing the corner by a blank *)
Definition cell (c : gostr) : Prop := c = _PREFIX_TRUNK \/ c = _PREFIX_EMP.
Lemma split_cell c s : cell c ->
  split_str_aux _PREFIX_LEAF 0 (c ++ s) =
  match split_str_aux _PREFIX_LEAF 0 s with [] => [c] | x :: l => (c ++ x) :: l end.
Proof.
  assert (Hne : split_str_aux _PREFIX_LEAF 0 s <> []).
  { destruct s as [|a s]; [done|]. cbn [split_str_aux]. destruct (has_prefix _ _); [done|].
    by destruct (split_str_aux _ 0 s). }
  intros [->| ->].
  - change _PREFIX_TRUNK with ["226"%char; "148"%char; "130"%char; " "%char; " "%char; " "%char].
    change _PREFIX_LEAF with (["226"; "148"; "148"; "226"; "148"; "128"; "226"; "148"; "128"]%char) in *.
    cbn [app split_str_aux has_prefix Ascii.eqb Bool.eqb andb].
    by destruct (split_str_aux _ 0 s).
  - change _PREFIX_EMP with [" "%char; " "%char; " "%char; " "%char].
    change _PREFIX_LEAF with (["226"; "148"; "148"; "226"; "148"; "128"; "226"; "148"; "128"]%char) in *.
    cbn [app split_str_aux has_prefix Ascii.eqb Bool.eqb andb].
    by destruct (split_str_aux _ 0 s).
Qed.
Lemma replace_cells cells s : Forall cell cells ->
  replace_all _PREFIX_LEAF _PREFIX_EMP (concat cells ++ s) = concat cells ++ replace_all _PREFIX_LEAF _PREFIX_EMP s.
Proof.
  intros Hc. unfold replace_all, split_str.
  assert (exists x l, split_str_aux _PREFIX_LEAF 0 s = x :: l) as (x & l & Hs).
  { destruct s as [|a s]; [by do 2 eexists|]. cbn [split_str_aux]. destruct (has_prefix _ _); [by do 2 eexists|].
    destruct (split_str_aux _ 0 s); by do 2 eexists. }
  assert (split_str_aux _PREFIX_LEAF 0 (concat cells ++ s) = (concat cells ++ x) :: l) as ->.
  { induction Hc as [|c cells Hc Hcs IH]; [done|]. cbn [concat]. rewrite <- app_assoc, split_cell by done.
    rewrite IH. by rewrite app_assoc. }
  rewrite Hs. destruct l; cbn [join]; by rewrite ?app_assoc.
Qed.
Lemma replace_leaf : replace_all _PREFIX_LEAF _PREFIX_EMP _PREFIX_LEAF = _PREFIX_EMP.
Proof. reflexivity. Qed.
Lemma replace_nil : replace_all _PREFIX_LEAF _PREFIX_EMP [] = [].
Proof. reflexivity. Qed.

(** what the beginning of printRawRouter and printTreeNode makes of its prefix *)
Definition norm (prefix : gostr) : gostr :=
  if negb (seqb prefix []) then replace_all _PREFIX_LEAF _PREFIX_EMP prefix else prefix.
Lemma norm_eq prefix : norm prefix = replace_all _PREFIX_LEAF _PREFIX_EMP prefix.
Proof. unfold norm. destruct (seqb_spec prefix []) as [->|]; done. Qed.
Lemma norm_cells cells : Forall cell cells -> norm (concat cells) = concat cells.
Proof.
  intros Hc. rewrite norm_eq, <- (app_nil_r (concat cells)), replace_cells by done. by rewrite replace_nil.
Qed.
Lemma norm_leaf cells : Forall cell cells -> norm (concat cells ++ _PREFIX_LEAF) = concat cells ++ _PREFIX_EMP.
Proof. intros Hc. rewrite norm_eq, replace_cells by done. by rewrite replace_leaf. Qed.
Lemma norm_snoc cells c : Forall cell cells -> cell c -> norm (concat cells ++ c) = concat cells ++ c.
Proof.
  intros Hc Hcc. assert (concat cells ++ c = concat (cells ++ [c])) as -> by (rewrite concat_app; simpl; by rewrite app_nil_r).
  apply norm_cells. apply Forall_app. split; [done|]. constructor; [done|constructor].
Qed.
Lemma indent_cells d after : exists cells, indent d after = concat cells /\ length cells = d /\ Forall cell cells.
Proof.
  exists (map (fun j => if goes_on j after then _PREFIX_TRUNK else _PREFIX_EMP) (seq 0 d)). split_and!; [done| |].
  - by rewrite map_length, seq_length.
  - apply Forall_forall. intros c Hc. apply elem_of_list_fmap in Hc as (j & -> & _).
    destruct (goes_on j after); [by left|by right].
Qed.

(** ** The routers as registered *)
Section Raw.
Context {A : Type}.
Context (h : list (ev A)).
Hypothesis Hw : wf h.

(** the number countHandlersForRawRouter gives *)
Definition shown (x : nat) (n : nat) : Prop :=
  exists path c, lineage h x path /\ creations h !! x = Some c /\
    n = length (concat (map (mws h) path)) + length (handlers_of c).

Lemma handlers_nonleaf p e : creations h !! p = Some e -> is_leaf e = false -> handlers_of e = [].
Proof. by destruct e. Qed.
Lemma count_ok fuel : forall x path c, lineage h x path -> creations h !! x = Some c -> x < fuel ->
  countHandlersForRawRouter fuel (heap_of h) x = Ok (length (concat (map (mws h) path)) + length (handlers_of c)).
Proof.
  induction fuel as [|fuel IH]; intros x path c Hl Hc Hf; [lia|].
  cbn [countHandlersForRawRouter]. rewrite heap_lookup, Hc. cbn [fmap option_fmap option_map obj r_parent r_befores r_handlers].
  destruct Hl as [x Hx|x c' p path Hx Hp Hl].
  - rewrite Hx in Hc. injection Hc as <-. cbn [parent_of]. f_equal. cbn [map concat]. rewrite app_nil_r. done.
  - rewrite Hx in Hc. injection Hc as <-. rewrite Hp. destruct (wf_parent h Hw _ _ _ Hx Hp) as (Hlt & e & He & Hleaf).
    rewrite (IH p path e Hl He) by lia. cbn [rbind]. f_equal. rewrite map_app, concat_app, app_length. cbn [map concat].
    rewrite app_nil_r, (handlers_nonleaf _ _ He Hleaf). simpl. lia.
Qed.

(** labels and items *)
Definition label (x : nat) : gostr :=
  match creations h !! x with
  | Some c =>
      if seqb (method_of c) [] then pattern_of c
      else pattern_of c ++ L " [" ++ fmt_left 7 (method_of c) ++ L " : " ++
           itoa_nat (match countHandlersForRawRouter (S (length (heap_of h))) (heap_of h) x with Ok n => n | _ => 0 end) ++ L "]"
  | None => []
  end.
Fixpoint its_of (fuel d : nat) (l : list nat) : items :=
  match fuel with
  | O => []
  | S fuel => concat (map (fun x => (d, label x) :: its_of fuel (S d) (children h x)) l)
  end.
Fixpoint ids_of (fuel : nat) (l : list nat) : list nat :=
  match fuel with
  | O => []
  | S fuel => concat (map (fun x => x :: ids_of fuel (children h x)) l)
  end.
Lemma its_deep fuel : forall d l, Forall (fun it => d <= fst it) (its_of fuel d l).
Proof.
  induction fuel as [|fuel IH]; intros d l; [constructor|]. cbn [its_of].
  induction l as [|x l IHl]; [constructor|]. cbn [map concat]. apply Forall_app. split; [|done].
  constructor; [done|]. eapply Forall_impl; [apply IH|]. intros it Hit. simpl in Hit. lia.
Qed.
Lemma its_go fuel d l after : goes_on d (its_of (S fuel) d l ++ after) =
  match l with [] => goes_on d after | _ => true end.
Proof.
  destruct l as [|x l]; [done|]. cbn [its_of map concat app goes_on]. by rewrite Nat.eqb_refl.
Qed.

Lemma lineage_of x c : creations h !! x = Some c -> exists path, lineage h x path.
Proof. by apply lineage_exists. Qed.

Lemma printRawRoute_ok prefix x c : creations h !! x = Some c ->
  printRawRoute prefix (heap_of h) x = Ok (prefix ++ L " " ++ label x ++ newline).
Proof.
  intros Hc. unfold printRawRoute, label. rewrite heap_lookup, Hc.
  cbn [fmap option_fmap option_map obj r_method r_pattern]. destruct (seqb (method_of c) []); [done|].
  destruct (lineage_of _ _ Hc) as [path Hp].
  rewrite (count_ok _ _ _ _ Hp Hc) by (rewrite heap_length; apply lookup_lt_Some in Hc; lia).
  cbn [rbind]. by rewrite <- !app_assoc.
Qed.

Lemma child_gt r i : i ∈ children h r -> r < i < length (creations h).
Proof.
  intros Hi. apply elem_of_children in Hi as (c & Hi & Hp). destruct (wf_parent h Hw _ _ _ Hi Hp) as (Hlt & _).
  split; [done|]. by apply lookup_lt_Some in Hi.
Qed.

Lemma printRawRouter_ok fuel : forall l d after prefix,
  (forall x, x ∈ l -> x < length (creations h) /\ length (creations h) < fuel + x) ->
  (l <> [] -> 0 < fuel) ->
  shallow d after -> norm prefix = indent d after ->
  l <> [] ->
  printRawRouter fuel (heap_of h) l prefix = Ok (draw_in after (its_of fuel d l)).
Proof.
  induction fuel as [|fuel IH]; intros l d after prefix Hl Hne Hgo Hn Hlne; [specialize (Hne Hlne); lia|].
  cbn [printRawRouter]. fold (norm prefix). rewrite Hn. clear Hn Hne Hlne.
  induction l as [|x l IHl]; [done|].
  destruct (Hl x ltac:(left)) as [Hx Hxf]. apply lookup_lt_is_Some in Hx as [c Hc].
  assert (Hrest := IHl ltac:(intros y Hy; apply Hl; by right)). clear IHl.
  set (last := match l with [] => true | _ => false end).
  rewrite (printRawRoute_ok _ _ _ Hc). cbn [rbind]. rewrite heap_lookup, Hc. cbn [fmap option_fmap option_map obj r_sub].
  assert (Hdeep := its_deep (S fuel) d l).
  assert (Hlast : goes_on d (its_of (S fuel) d l ++ after) = negb last).
  { rewrite its_go. subst last. destruct l; [|done]. by eapply shallow_stop. }
  assert (Hsh : shallow (S d) (its_of (S fuel) d l ++ after)).
  { destruct l as [|y l]; [|cbn [its_of map concat app shallow]; lia].
    cbn [its_of map concat app]. destruct after as [|[k lb] after]; [done|]. cbn [shallow] in *. lia. }
  assert (Hbelow :
    match children h x with
    | [] => Ok []
    | _ => printRawRouter fuel (heap_of h) (children h x) (indent d after ++ (if last then _PREFIX_LEAF else _PREFIX_TRUNK))
    end = Ok (draw_in (its_of (S fuel) d l ++ after) (its_of fuel (S d) (children h x)))).
  { destruct (children h x) as [|y ys] eqn:Hch.
    - by destruct fuel.
    - rewrite <- Hch. assert (Hy : y ∈ children h x) by (rewrite Hch; left). apply child_gt in Hy.
      apply IH; [| |done| |by rewrite Hch].
      + intros z Hz. apply child_gt in Hz. lia.
      + intros _. lia.
      + rewrite indent_S, Hlast, indent_skip by done. destruct (indent_cells d after) as (cells & -> & _ & Hcs).
        destruct last; cbn [negb].
        * by apply norm_leaf.
        * apply norm_snoc; [done|by left]. }
  rewrite Hbelow. cbn [rbind]. rewrite Hrest. cbn [rbind]. f_equal.
  change (its_of (S fuel) d (x :: l)) with (((d, label x) :: its_of fuel (S d) (children h x)) ++ its_of (S fuel) d l).
  rewrite draw_in_app. cbn [draw_in].
  assert (Hd2 : Forall (fun it => d < fst it) (its_of fuel (S d) (children h x))).
  { eapply Forall_impl; [apply its_deep|]. intros it Hit. simpl in Hit. lia. }
  rewrite indent_skip by (eapply Forall_impl; [exact Hd2|]; intros it Hit; simpl in Hit; lia).
  rewrite indent_skip by done. rewrite goes_on_skip by done. rewrite Hlast.
  rewrite <- !app_assoc. by destruct last.
Qed.

(** ** Which groups and routes are drawn, and in which order *)
Lemma method_empty c i : creations h !! i = Some c -> method_of c = [] -> is_leaf c = false.
Proof.
  intros Hc Hm. destruct c as [| |p m pat hs| | |]; try done. simpl in Hm. subst m.
  apply (wf_method h Hw) in Hc. by apply method_nonempty in Hc.
Qed.
Lemma items_ids r fuel : forall l d p,
  (forall x, x ∈ l -> lineage h x (r :: p ++ [x])) -> length p = d ->
  Forall2 (outline_item h r shown) (ids_of fuel l) (its_of fuel d l).
Proof.
  induction fuel as [|fuel IH]; intros l d p Hl Hd; [constructor|]. cbn [ids_of its_of].
  induction l as [|x l IHl]; [constructor|]. cbn [map concat]. apply Forall2_app.
  2: { apply IHl. intros y Hy. apply Hl. by right. }
  pose proof (Hl x ltac:(left)) as Hx. constructor.
  - exists (p ++ [x]). split_and!; [done|rewrite app_length; simpl; lia|].
    destruct (lineage_creation _ _ _ Hx) as [c Hc]. cbn [snd]. unfold label. rewrite Hc.
    pose proof (creation_creates _ _ _ Hc) as Hcr. destruct c as [|q pat|q m pat hs|q y|q y|q y]; try done.
    + inversion Hx as [y Hy E1 E2|y c' q p' Hy Hp Hlin E1 E2]; subst.
      * by destruct p.
      * rewrite Hc in Hy. injection Hy as <-. done.
    + left. eauto.
    + right. destruct (seqb_spec (method_of (ERoute q m pat hs)) []) as [Hm|Hm].
      { apply (method_empty _ _ Hc) in Hm. done. }
      cbn [method_of pattern_of]. do 6 eexists. split_and!; [reflexivity|apply fmt_left_ok| |rewrite <- number_eq; reflexivity].
      rewrite (count_ok _ _ _ _ Hx Hc) by (rewrite heap_length; apply lookup_lt_Some in Hc; lia).
      do 2 eexists. split_and!; [exact Hx|exact Hc|done].
  - apply (IH _ _ (p ++ [x])); [|rewrite app_length; simpl; lia].
    intros y Hy. apply elem_of_children in Hy as (c & Hy & Hp). by apply (lineage_child _ y c x _ Hy Hp) in Hx.
Qed.

Lemma ids_elem fuel : forall r path, lineage h r path -> length (creations h) <= fuel + r ->
  forall x, x ∈ ids_of fuel (children h r) <-> exists t, t <> [] /\ lineage h x (path ++ t).
Proof.
  induction fuel as [|fuel IH]; intros r path Hl Hf x.
  { destruct (lineage_creation _ _ _ Hl) as [c Hc]. apply lookup_lt_Some in Hc. lia. }
  cbn [ids_of]. rewrite elem_of_concat'. split.
  - intros (l & Hin & Hx). apply elem_of_list_fmap in Hin as (i & -> & Hi). pose proof (child_gt _ _ Hi) as Hgt.
    apply elem_of_children in Hi as (c & Hi & Hp). pose proof (lineage_down _ _ _ _ _ Hl Hi Hp) as Hli.
    apply elem_of_cons in Hx as [->|Hx]; [by exists [i]|].
    apply (IH i (path ++ [i]) Hli ltac:(lia)) in Hx as (t & Ht & Hx). exists (i :: t). split; [done|].
    by rewrite <- app_assoc in Hx.
  - intros (t & Ht & Hx). destruct (lineage_split h x _ path r t Hw Hl Hx eq_refl Ht) as (i & t' & -> & Hi).
    pose proof (child_gt _ _ Hi) as Hgt. exists (i :: ids_of fuel (children h i)).
    split; [apply elem_of_list_fmap; eauto|]. apply elem_of_children in Hi as (c & Hi & Hp).
    pose proof (lineage_down _ _ _ _ _ Hl Hi Hp) as Hli. destruct t' as [|j t'].
    + apply lineage_last in Hx as (p & Hx). assert (i = x) as -> by (apply app_inj_tail in Hx as [_ ?]; done). left.
    + right. apply (IH i (path ++ [i]) Hli ltac:(lia)). exists (j :: t'). split; [done|]. by rewrite <- app_assoc.
Qed.

Lemma ids_sorted fuel : forall r path, lineage h r path -> length (creations h) <= fuel + r ->
  StronglySorted (outline_lt h) (ids_of fuel (children h r)).
Proof.
  induction fuel as [|fuel IH]; intros r path Hl Hf; [constructor|].
  cbn [ids_of].
  assert (Hch : forall i, i ∈ children h r -> r < i < length (creations h) /\ lineage h i (path ++ [i])).
  { intros i Hi. split; [by apply child_gt|]. apply elem_of_children in Hi as (c & Hi & Hp). by eapply lineage_down. }
  pose proof (children_sorted h r) as Hs. revert Hch Hs. generalize (children h r). intros l Hch Hs.
  induction Hs as [|i l Hs IHs Hi]; [constructor|]. cbn [map concat].
  destruct (Hch i ltac:(left)) as [Hgt Hli].
  apply (sorted_app (outline_lt h) (i :: ids_of fuel (children h i))).
  - constructor; [eapply IH; [exact Hli|lia]|]. apply Forall_forall. intros x Hx.
    apply (ids_elem fuel i _ Hli ltac:(lia)) in Hx as (t & Ht & Hx).
    exists (path ++ [i]), ((path ++ [i]) ++ t). split_and!; [done|done|]. left. destruct t as [|a t]; [done|].
    by exists a, t.
  - apply IHs. intros j Hj. apply Hch. by right.
  - intros x y Hx Hy.
    assert (exists t, lineage h x ((path ++ [i]) ++ t)) as [t Hlx].
    { apply elem_of_cons in Hx as [->|Hx]; [exists []; by rewrite app_nil_r|].
      apply (ids_elem fuel i _ Hli ltac:(lia)) in Hx as (t & _ & Hx). eauto. }
    apply elem_of_concat' in Hy as (k & Hk & Hy). apply elem_of_list_fmap in Hk as (j & -> & Hj).
    destruct (Hch j ltac:(by right)) as [Hgj Hlj].
    assert (exists t, lineage h y ((path ++ [j]) ++ t)) as [u Hly].
    { apply elem_of_cons in Hy as [->|Hy]; [exists []; by rewrite app_nil_r|].
      apply (ids_elem fuel j _ Hlj ltac:(lia)) in Hy as (u & _ & Hy). eauto. }
    rewrite Forall_forall in Hi. rewrite <- app_assoc in Hlx, Hly.
    do 2 eexists. split_and!; [exact Hlx|exact Hly|]. right. constructor. by apply Hi.
Qed.

Lemma raw_router_drawn (e : engine A) : creations h !! en_root e = Some ENew ->
  exists ns its, outline h (en_root e) ns /\ Forall2 (outline_item h (en_root e) shown) ns its /\
    PrintRawRouter (heap_of h) e = Ok (drawing its).
Proof.
  intros Hroot. set (r := en_root e) in *.
  pose proof (lineage_root h r Hroot) as Hl. set (fuel := S (length (heap_of h))).
  assert (Hfuel : length (creations h) <= fuel + r) by (unfold fuel; rewrite heap_length; lia).
  exists (ids_of fuel (children h r)), (its_of fuel 0 (children h r)). split_and!.
  - split; [apply (ids_elem fuel r [r] Hl Hfuel)|by apply (ids_sorted fuel r [r])].
  - apply (items_ids r fuel _ 0 []); [|done]. intros x Hx. apply elem_of_children in Hx as (c & Hx & Hp).
    by apply (lineage_down h r [r] x c).
  - unfold PrintRawRouter. fold r. rewrite heap_lookup, Hroot. cbn [fmap option_fmap option_map obj r_sub]. fold fuel.
    destruct (children h r) as [|y ys] eqn:Hch; [done|]. rewrite <- Hch.
    rewrite <- draw_in_nil. apply printRawRouter_ok; [|unfold fuel; lia|done|done|by rewrite Hch].
    intros x Hx. apply child_gt in Hx. unfold fuel. rewrite heap_length. lia.
Qed.
Lemma shown_runs x n : shown x n <->
  exists path b, lineage h x path /\ head path = Some b /\ n + length (befores h b) = length (chain h path x).
Proof.
  split.
  - intros (path & c & Hl & Hc & ->). destruct (lineage_head _ _ _ Hl) as (b & p & -> & _).
    exists (b :: p), b. split_and!; [done|done|]. unfold chain. rewrite Hc, !app_length. lia.
  - intros (path & b & Hl & Hb & Hn). destruct (lineage_creation _ _ _ Hl) as [c Hc].
    exists path, c. split_and!; [done|done|]. unfold chain in Hn. rewrite Hc, !app_length in Hn.
    destruct path; [done|]. injection Hb as ->. lia.
Qed.
End Raw.
