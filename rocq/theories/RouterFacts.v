(** Registration calls implement the history semantics of RouterSpec. *)
From Verif Require Import Base GoStr Strconv Pattern Tree TreeSpec Router RouterSpec.

Section Facts.
Context {A : Type}.
Implicit Types h : list (ev A).

(** ** The heap of a history *)
Definition is_leaf (e : ev A) : bool := match e with ERoute _ _ _ _ => true | _ => false end.
Definition children h (r : nat) : list nat :=
  List.filter (fun i => match creations h !! i with
                        | Some c => bool_decide (parent_of c = Some r)
                        | None => false end) (seq 0 (length (creations h))).
Definition obj h (i : nat) (c : ev A) : router A :=
  mkRouter (method_of c) (pattern_of c) (befores h i) (mws h i) (handlers_of c)
           (parent_of c) (children h i) (is_leaf c).
Definition heap_of h : heap A := imap (obj h) (creations h).

Lemma heap_lookup h i : heap_of h !! i = obj h i <$> creations h !! i.
Proof. unfold heap_of. by rewrite list_lookup_imap. Qed.
Lemma heap_length h : length (heap_of h) = length (creations h).
Proof. apply imap_length. Qed.

Lemma creations_app h1 h2 : creations (h1 ++ h2) = creations h1 ++ creations h2.
Proof. apply List.filter_app. Qed.
Lemma creations_prefix h1 h2 i c : creations h1 !! i = Some c -> creations (h1 ++ h2) !! i = Some c.
Proof. rewrite creations_app. apply lookup_app_l_Some. Qed.
Lemma mws_app h1 h2 r : mws (h1 ++ h2) r = mws h1 r ++ mws h2 r.
Proof. unfold mws. by rewrite map_app, concat_app. Qed.
Lemma befores_app h1 h2 r : befores (h1 ++ h2) r = befores h1 r ++ befores h2 r.
Proof. unfold befores. by rewrite map_app, concat_app. Qed.

(** ** Well-formed histories *)
Record wf h : Prop := {
  wf_parent : forall i c p, creations h !! i = Some c -> parent_of c = Some p ->
    p < i /\ exists e, creations h !! p = Some e /\ is_leaf e = false;
  wf_before : forall r hs, EBefore r hs ∈ h -> creations h !! r = Some ENew;
  wf_method : forall i p m pat hs, creations h !! i = Some (ERoute p m pat hs) -> m ∈ _HTTP_METHODS_NAMES;
  wf_nil : forall i p m pat hs, creations h !! i = Some (ERoute p m pat hs) -> INil ∉ hs
}.
Lemma creations_nil i : creations [] !! i = @None (ev A).
Proof. by destruct i. Qed.
Lemma wf_nil_history : wf [].
Proof.
  constructor.
  - intros i c p Hc. by rewrite creations_nil in Hc.
  - intros r hs Hin. by apply elem_of_nil in Hin.
  - intros i p m pat hs Hc. by rewrite creations_nil in Hc.
  - intros i p m pat hs Hc. by rewrite creations_nil in Hc.
Qed.

Lemma wf_snoc h e : wf h ->
  (forall p, parent_of e = Some p -> exists c, creations h !! p = Some c /\ is_leaf c = false) ->
  (forall r hs, e = EBefore r hs -> creations h !! r = Some ENew) ->
  (forall p m pat hs, e = ERoute p m pat hs -> m ∈ _HTTP_METHODS_NAMES /\ INil ∉ hs) ->
  wf (h ++ [e]).
Proof.
  intros [W1 W2 W3 W4] Hp Hb Hr.
  assert (Hlast : forall i c, creations (h ++ [e]) !! i = Some c ->
    creations h !! i = Some c \/ (i = length (creations h) /\ c = e)).
  { intros i c. rewrite creations_app. intros Hl. apply lookup_app_Some in Hl as [Hl|[Hge Hl]]; [by left|right].
    unfold creations in Hl. simpl in Hl. destruct (creates e); simpl in Hl.
    - apply list_lookup_singleton_Some in Hl as [Hi <-]. split; [|done].
      unfold creations. unfold creations in Hge. lia.
    - by rewrite lookup_nil in Hl. }
  constructor.
  - intros i c p Hc Hpar. apply Hlast in Hc as [Hc|[-> ->]].
    + destruct (W1 _ _ _ Hc Hpar) as (Hlt & e' & He' & Hf). split; [done|].
      exists e'. split; [by apply creations_prefix|done].
    + destruct (Hp _ Hpar) as (c & Hc & Hf). split; [by apply lookup_lt_Some in Hc|].
      exists c. split; [by apply creations_prefix|done].
  - intros r hs Hin. apply elem_of_app in Hin as [Hin|Hin].
    + apply creations_prefix. by eapply W2.
    + apply elem_of_list_singleton in Hin. apply creations_prefix. by eapply Hb.
  - intros i p m pat hs Hc. apply Hlast in Hc as [Hc|[_ Hc]]; [by eapply W3|]. by eapply Hr.
  - intros i p m pat hs Hc. apply Hlast in Hc as [Hc|[_ Hc]]; [by eapply W4|]. by eapply Hr.
Qed.

(** ** One event at a time *)
Lemma filter_ext_in' {B} (f g : B -> bool) l :
  (forall x, x ∈ l -> f x = g x) -> List.filter f l = List.filter g l.
Proof. intros Hfg. apply List.filter_ext_in. intros a Ha. apply Hfg. by apply elem_of_list_In. Qed.

Lemma creations_snoc h e : creations (h ++ [e]) = creations h ++ (if creates e then [e] else []).
Proof. rewrite creations_app. f_equal. Qed.

Lemma children_snoc h e r :
  children (h ++ [e]) r = children h r ++
    (if creates e && bool_decide (parent_of e = Some r) then [length (creations h)] else []).
Proof.
  unfold children. rewrite creations_snoc. destruct (creates e); simpl.
  - rewrite app_length. simpl. rewrite seq_app, List.filter_app. f_equal.
    + apply filter_ext_in'. intros i Hi. apply elem_of_seq in Hi.
      by rewrite lookup_app_l by lia.
    + simpl. rewrite lookup_app_r by lia. rewrite Nat.sub_diag. simpl.
      by destruct (bool_decide _).
  - by rewrite !app_nil_r.
Qed.

Definition upd (e : ev A) (hp : heap A) : heap A :=
  match e with
  | ENew => NewRouter hp
  | EGroup r pattern =>
      alter (set_sub (fun l => l ++ [length hp])) r hp ++ [mkRouter [] pattern [] [] [] (Some r) [] false]
  | ERoute r m pattern hs =>
      alter (set_sub (fun l => l ++ [length hp])) r hp ++ [mkRouter m pattern [] [] hs (Some r) [] true]
  | EBefore r hs => alter (set_gbefores (fun l => l ++ hs)) r hp
  | EUse r hs => alter (set_befores (fun l => l ++ hs)) r hp
  | EGroupMw r x => alter (set_befores (fun l => l ++ [x])) r hp
  end.

(** later-numbered routers do not occur in the history *)
Definition fresh_refs h : Prop :=
  (forall i c p, creations h !! i = Some c -> parent_of c = Some p -> p < length (creations h)) /\
  (forall r hs, EBefore r hs ∈ h -> r < length (creations h)) /\
  (forall r hs, EUse r hs ∈ h -> r < length (creations h)) /\
  (forall r x, EGroupMw r x ∈ h -> r < length (creations h)).

Lemma concat_nil_all {B} (l : list (list B)) : (forall x, x ∈ l -> x = []) -> concat l = [].
Proof.
  induction l as [|x l IH]; intros Hl; [done|]. simpl. rewrite (Hl x) by left. simpl.
  apply IH. intros y Hy. apply Hl. by right.
Qed.
Lemma befores_fresh h n : fresh_refs h -> length (creations h) <= n -> befores h n = [].
Proof.
  intros (_ & Hb & _ & _) Hn. unfold befores. apply concat_nil_all. intros x Hx.
  apply elem_of_list_fmap in Hx as (e & -> & He). destruct e; try done.
  destruct (decide _) as [->|]; [|done]. apply Hb in He. lia.
Qed.
Lemma mws_fresh h n : fresh_refs h -> length (creations h) <= n -> mws h n = [].
Proof.
  intros (_ & _ & Hu & Hg) Hn. unfold mws. apply concat_nil_all. intros x Hx.
  apply elem_of_list_fmap in Hx as (e & -> & He). destruct e; try done;
  (destruct (decide _) as [->|]; [|done]); [apply Hu in He|apply Hg in He]; lia.
Qed.
Lemma children_fresh h n : fresh_refs h -> length (creations h) <= n -> children h n = [].
Proof.
  intros (Hp & _) Hn. unfold children.
  rewrite (filter_ext_in' _ (fun _ => false)).
  - generalize (seq 0 (length (creations h))). intros l. by induction l.
  - intros i Hi. destruct (creations h !! i) as [c|] eqn:Hc; [|done].
    apply bool_decide_eq_false. intros Hpar. specialize (Hp _ _ _ Hc Hpar). lia.
Qed.

Lemma befores_snoc h e i : befores (h ++ [e]) i = befores h i ++
  match e with EBefore r' hs => if decide (r' = i) then hs else [] | _ => [] end.
Proof. rewrite befores_app. f_equal. unfold befores. simpl. by rewrite app_nil_r. Qed.
Lemma mws_snoc h e i : mws (h ++ [e]) i = mws h i ++
  match e with EUse r' hs => if decide (r' = i) then hs else []
             | EGroupMw r' x => if decide (r' = i) then [x] else [] | _ => [] end.
Proof. rewrite mws_app. f_equal. unfold mws. simpl. by rewrite app_nil_r. Qed.

Definition ref_ok h (e : ev A) : Prop :=
  match e with
  | ENew => True
  | EGroup r _ | ERoute r _ _ _ | EBefore r _ | EUse r _ | EGroupMw r _ => r < length (creations h)
  end.

Lemma fresh_snoc h e : fresh_refs h -> ref_ok h e -> fresh_refs (h ++ [e]).
Proof.
  intros (Hp & Hb & Hu & Hg) Hr.
  assert (Hle : length (creations h) <= length (creations (h ++ [e]))).
  { rewrite creations_app, app_length. lia. }
  split; [|split; [|split]].
  - intros i c p. rewrite creations_app at 1. intros Hl Hpar.
    apply lookup_app_Some in Hl as [Hl|[_ Hl]]; [specialize (Hp _ _ _ Hl Hpar); lia|].
    unfold creations in Hl. simpl in Hl. destruct (creates e); simpl in Hl; [|by rewrite lookup_nil in Hl].
    apply list_lookup_singleton_Some in Hl as [_ <-]. destruct e; simpl in *; simplify_eq; lia.
  - intros r hs Hin. apply elem_of_app in Hin as [Hin|Hin]; [apply Hb in Hin; lia|].
    apply elem_of_list_singleton in Hin as <-. simpl in Hr. lia.
  - intros r hs Hin. apply elem_of_app in Hin as [Hin|Hin]; [apply Hu in Hin; lia|].
    apply elem_of_list_singleton in Hin as <-. simpl in Hr. lia.
  - intros r hs Hin. apply elem_of_app in Hin as [Hin|Hin]; [apply Hg in Hin; lia|].
    apply elem_of_list_singleton in Hin as <-. simpl in Hr. lia.
Qed.

Lemma heap_snoc h e : fresh_refs h -> ref_ok h e -> heap_of (h ++ [e]) = upd e (heap_of h).
Proof.
  intros Hf Hr. apply list_eq. intros i. rewrite heap_lookup, creations_snoc.
  destruct e as [|r pat|r m pat hs|r hs|r hs|r x]; simpl; simpl in Hr.
  - (* ENew *)
    unfold NewRouter. destruct (decide (i < length (creations h))).
    + rewrite !lookup_app_l by (rewrite ?heap_length; lia). rewrite heap_lookup.
      destruct (creations h !! i) as [c|]; simpl; [|done]. f_equal. unfold obj.
      by rewrite befores_snoc, mws_snoc, children_snoc, !app_nil_r.
    + rewrite !lookup_app_r by (rewrite ?heap_length; lia). rewrite heap_length.
      destruct (i - length (creations h)) as [|k] eqn:Hk; [|simpl; by rewrite !lookup_nil]. simpl.
      unfold obj. rewrite befores_snoc, mws_snoc, children_snoc, befores_fresh, mws_fresh, children_fresh by (done || lia). done.
  - destruct (decide (i < length (creations h))).
    + rewrite !lookup_app_l by (rewrite ?alter_length, ?heap_length; lia).
      destruct (decide (i = r)) as [->|Hne].
      * rewrite list_lookup_alter, heap_lookup. destruct (creations h !! r) as [c|]; simpl; [|done].
        f_equal. unfold obj, set_sub. simpl. rewrite befores_snoc, mws_snoc, children_snoc, !app_nil_r. simpl.
        rewrite bool_decide_eq_true_2 by done. by rewrite heap_length.
      * rewrite list_lookup_alter_ne by done. rewrite heap_lookup. destruct (creations h !! i) as [c|]; simpl; [|done].
        f_equal. unfold obj. rewrite befores_snoc, mws_snoc, children_snoc. simpl.
        rewrite bool_decide_eq_false_2 by congruence. by rewrite !app_nil_r.
    + rewrite !lookup_app_r by (rewrite ?alter_length, ?heap_length; lia). rewrite alter_length, heap_length.
      destruct (i - length (creations h)) as [|k] eqn:Hk; [|simpl; by rewrite !lookup_nil]. simpl.
      unfold obj. rewrite befores_snoc, mws_snoc, children_snoc, befores_fresh, mws_fresh, children_fresh by (done || lia).
      simpl. rewrite bool_decide_eq_false_2 by (intros [=]; lia). done.
  - destruct (decide (i < length (creations h))).
    + rewrite !lookup_app_l by (rewrite ?alter_length, ?heap_length; lia).
      destruct (decide (i = r)) as [->|Hne].
      * rewrite list_lookup_alter, heap_lookup. destruct (creations h !! r) as [c|]; simpl; [|done].
        f_equal. unfold obj, set_sub. simpl. rewrite befores_snoc, mws_snoc, children_snoc, !app_nil_r. simpl.
        rewrite bool_decide_eq_true_2 by done. by rewrite heap_length.
      * rewrite list_lookup_alter_ne by done. rewrite heap_lookup. destruct (creations h !! i) as [c|]; simpl; [|done].
        f_equal. unfold obj. rewrite befores_snoc, mws_snoc, children_snoc. simpl.
        rewrite bool_decide_eq_false_2 by congruence. by rewrite !app_nil_r.
    + rewrite !lookup_app_r by (rewrite ?alter_length, ?heap_length; lia). rewrite alter_length, heap_length.
      destruct (i - length (creations h)) as [|k] eqn:Hk; [|simpl; by rewrite !lookup_nil]. simpl.
      unfold obj. rewrite befores_snoc, mws_snoc, children_snoc, befores_fresh, mws_fresh, children_fresh by (done || lia).
      simpl. rewrite bool_decide_eq_false_2 by (intros [=]; lia). done.
  - rewrite app_nil_r. destruct (decide (i = r)) as [->|Hne].
    + rewrite list_lookup_alter, heap_lookup. destruct (creations h !! r) as [c|]; simpl; [|done].
      f_equal. unfold obj, set_gbefores. simpl. rewrite befores_snoc, mws_snoc, children_snoc, !app_nil_r. simpl.
      by rewrite decide_True.
    + rewrite list_lookup_alter_ne by done. rewrite heap_lookup. destruct (creations h !! i) as [c|]; simpl; [|done].
      f_equal. unfold obj. rewrite befores_snoc, mws_snoc, children_snoc. simpl.
      rewrite decide_False by done. by rewrite !app_nil_r.
  - rewrite app_nil_r. destruct (decide (i = r)) as [->|Hne].
    + rewrite list_lookup_alter, heap_lookup. destruct (creations h !! r) as [c|]; simpl; [|done].
      f_equal. unfold obj, set_befores. simpl. rewrite befores_snoc, mws_snoc, children_snoc, !app_nil_r. simpl.
      by rewrite decide_True.
    + rewrite list_lookup_alter_ne by done. rewrite heap_lookup. destruct (creations h !! i) as [c|]; simpl; [|done].
      f_equal. unfold obj. rewrite befores_snoc, mws_snoc, children_snoc. simpl.
      rewrite decide_False by done. by rewrite !app_nil_r.
  - rewrite app_nil_r. destruct (decide (i = r)) as [->|Hne].
    + rewrite list_lookup_alter, heap_lookup. destruct (creations h !! r) as [c|]; simpl; [|done].
      f_equal. unfold obj, set_befores. simpl. rewrite befores_snoc, mws_snoc, children_snoc, !app_nil_r. simpl.
      by rewrite decide_True.
    + rewrite list_lookup_alter_ne by done. rewrite heap_lookup. destruct (creations h !! i) as [c|]; simpl; [|done].
      f_equal. unfold obj. rewrite befores_snoc, mws_snoc, children_snoc. simpl.
      rewrite decide_False by done. by rewrite !app_nil_r.
Qed.

(** ** Programs *)
Definition garg_all (P : rop A -> Prop) (g : garg A) : Prop :=
  match g with GSub ops => Forall P ops | _ => True end.
Fixpoint rop_ind' (P : rop A -> Prop)
  (Hnew : P RNew) (Hbefore : forall r hs, P (RBefore r hs)) (Huse : forall r hs, P (RUse r hs))
  (Hhandle : forall r m pat hs, P (RHandle r m pat hs))
  (Hany : forall r ex pat hs, P (RAny r ex pat hs))
  (Hgroup : forall r pat args,
     Forall (garg_all P) args ->
     P (RGroup r pat args))
  (op : rop A) {struct op} : P op :=
  match op with
  | RNew => Hnew
  | RBefore r hs => Hbefore r hs
  | RUse r hs => Huse r hs
  | RHandle r m pat hs => Hhandle r m pat hs
  | RAny r ex pat hs => Hany r ex pat hs
  | RGroup r pat args => Hgroup r pat args
      ((fix go (l : list (garg A)) : Forall (garg_all P) l :=
         match l with
         | [] => Forall_nil_2 _
         | g :: l' => Forall_cons_2 (garg_all P) g l'
             (match g return garg_all P g with
              | GSub ops =>
                  (fix run (l : list (rop A)) : Forall P l :=
                     match l with
                     | [] => Forall_nil_2 _
                     | o :: l' => Forall_cons_2 P o l'
                         (rop_ind' P Hnew Hbefore Huse Hhandle Hany Hgroup o) (run l')
                     end) ops
              | _ => I
              end) (go l')
         end) args)
  end.

(** the invariant carried along a program *)
Definition inv h (hp : heap A) : Prop := hp = heap_of h /\ wf h /\ fresh_refs h.

Lemma deref_heap h r x : deref (heap_of h) r = Ok x ->
  exists c, creations h !! r = Some c /\ is_leaf c = false /\ x = obj h r c.
Proof.
  unfold deref. rewrite heap_lookup. destruct (creations h !! r) as [c|]; simpl; [|done].
  destruct (is_leaf c) eqn:Hl; [done|]. intros [= <-]. eauto.
Qed.

Lemma inv_snoc h e hp :
  inv h hp -> ref_ok h e ->
  (forall p, parent_of e = Some p -> exists c, creations h !! p = Some c /\ is_leaf c = false) ->
  (forall r hs, e = EBefore r hs -> creations h !! r = Some ENew) ->
  (forall p m pat hs, e = ERoute p m pat hs -> m ∈ _HTTP_METHODS_NAMES /\ INil ∉ hs) ->
  inv (h ++ [e]) (upd e hp).
Proof.
  intros (-> & Hw & Hf) Hr Hp Hb Hm. split_and!.
  - symmetry. by apply heap_snoc.
  - by apply wf_snoc.
  - by apply fresh_snoc.
Qed.

Lemma existsb_nil (hs : list (ival A)) : existsb is_nil hs = false -> INil ∉ hs.
Proof.
  intros He Hin. apply not_true_iff_false in He. apply He.
  apply existsb_exists. exists INil. split; [by apply elem_of_list_In|done].
Qed.

Lemma handle_inv h hp hp' r m pat hs :
  inv h hp -> m ∈ _HTTP_METHODS_NAMES -> handle hp r m pat hs = Ok hp' ->
  inv (h ++ [ERoute r m pat hs]) hp'.
Proof.
  intros Hi Hm Hh. unfold handle in Hh. apply rbind_ok in Hh as (x & Hd & Hh).
  destruct (existsb is_nil hs) eqn:Hn; [done|]. inversion Hh; subst; clear Hh.
  destruct Hi as (-> & Hw & Hf). apply deref_heap in Hd as (c & Hc & Hl & ->).
  apply (inv_snoc h (ERoute r m pat hs) (heap_of h)).
  - by split_and!.
  - by apply lookup_lt_Some in Hc.
  - intros p [= <-]. eauto.
  - done.
  - intros ? ? ? ? [= <- <- <- <-]. split; [done|by apply existsb_nil].
Qed.

Lemma any_inv excl ms : forall h hp hp' r pat hs,
  (forall m, m ∈ ms -> m ∈ _HTTP_METHODS_NAMES) ->
  inv h hp -> any_loop excl ms hp r pat hs = Ok hp' ->
  inv (h ++ map (fun m => ERoute r m pat hs) (List.filter (fun m => negb (existsb (seqb m) excl)) ms)) hp'.
Proof.
  induction ms as [|m ms IH]; intros h hp hp' r pat hs Hms Hi Ha.
  - simpl in *. inversion Ha; subst. by rewrite app_nil_r.
  - cbn [any_loop List.filter] in *. destruct (existsb (seqb m) excl) eqn:Hx; cbn [negb map].
    + eapply IH; [|done|done]. intros m' Hm'. apply Hms. by right.
    + apply rbind_ok in Ha as (hp1 & Hh & Ha). apply (handle_inv h) in Hh; [|done|apply Hms; by left].
      eapply (IH (h ++ [ERoute r m pat hs])) in Ha; [|intros m' Hm'; apply Hms; by right|done].
      by rewrite <- app_assoc in Ha.
Qed.

Lemma exec_inv op : forall h hp hp', inv h hp -> exec op hp = Ok hp' -> inv (h ++ evs_of op) hp'.
Proof.
  induction op as [|r hs|r hs|r m pat hs|r ex pat hs|r pat args IH] using rop_ind'; intros h hp hp' Hi He.
  - inversion He; subst. apply (inv_snoc h ENew hp); try done.
  - simpl in *. unfold Before in He. apply rbind_ok in He as (x & Hd & He). destruct Hi as (-> & Hw & Hf).
    apply deref_heap in Hd as (c & Hc & Hl & ->). destruct (negb (IsParent _)) eqn:Hp; [done|].
    inversion He; subst. apply (inv_snoc h (EBefore r hs) (heap_of h)); try done.
    + by apply lookup_lt_Some in Hc.
    + intros r' hs' [= <- <-]. rewrite Hc. f_equal. unfold IsParent in Hp. simpl in Hp.
      assert (Hcr : creates c = true).
      { apply elem_of_list_lookup_2, elem_of_list_In in Hc. by apply List.filter_In in Hc as [_ ?]. }
      destruct c; done.
  - simpl in *. unfold Use in He. apply rbind_ok in He as (x & Hd & He). destruct Hi as (-> & Hw & Hf).
    apply deref_heap in Hd as (c & Hc & Hl & ->). inversion He; subst.
    apply (inv_snoc h (EUse r hs) (heap_of h)); try done. by apply lookup_lt_Some in Hc.
  - cbn [exec evs_of] in *. change method_names with _HTTP_METHODS_NAMES in *. destruct (_HTTP_METHODS_NAMES !! m) as [name|] eqn:Hm; [|done].
    eapply handle_inv; [done| |done]. by eapply elem_of_list_lookup_2.
  - cbn [exec evs_of] in *. eapply any_inv; [|done|done]. done.
  - cbn [exec] in He. apply rbind_ok in He as (x & Hd & He).
    assert (Hi1 : inv (h ++ [EGroup r pat]) (upd (EGroup r pat) hp) /\ r < length (creations h)).
    { destruct Hi as (-> & Hw & Hf). apply deref_heap in Hd as (c & Hc & Hl & ->). split; [|by apply lookup_lt_Some in Hc].
      apply inv_snoc; try done.
      - by apply lookup_lt_Some in Hc.
      - intros p [= <-]. eauto. }
    destruct Hi1 as [Hi1 Hr]. cbn [upd] in Hi1. revert Hi1 He.
    generalize (alter (set_sub (λ l : list nat, l ++ [length hp])) r hp ++ [mkRouter [] pat [] [] [] (Some r) [] false]).
    cbn [evs_of].
    assert (Hr1 : r < length (creations (h ++ [EGroup r pat]))).
    { rewrite creations_app, app_length. lia. }
    revert Hr1.
    match goal with |- context [inv (h ++ EGroup r pat :: ?X) hp'] =>
      change (h ++ EGroup r pat :: X) with (h ++ [EGroup r pat] ++ X);
      rewrite (app_assoc h [EGroup r pat] X) end.
    generalize (h ++ [EGroup r pat]). clear h hp x Hi Hd Hr.
    induction IH as [|g args Hg Hargs IHargs]; intros h Hr hp Hi He.
    + inversion He; subst. by rewrite app_nil_r.
    + destruct g as [a|ops|]; [| |done].
      * specialize (IHargs (h ++ [EGroupMw r (IFuncCtx a)])). rewrite <- app_assoc in IHargs.
        eapply IHargs; [| |exact He].
        -- rewrite creations_app, app_length. lia.
        -- apply (inv_snoc h (EGroupMw r (IFuncCtx a)) hp); try done.
      * apply rbind_ok in He as (hp1 & Hrun & He). rewrite app_assoc.
        assert (Hi2 : inv (h ++ (fix run (ops : list (rop A)) : list (ev A) :=
                match ops with
                | [] => []
                | op :: ops' => evs_of op ++ run ops'
                end) ops) hp1).
        { clear IHargs He Hargs Hr. revert h hp Hi Hrun. induction Hg as [|o ops Ho Hops IHops]; intros h hp Hi Hrun.
          - inversion Hrun; subst. by rewrite app_nil_r.
          - apply rbind_ok in Hrun as (hp2 & Ho2 & Hrun). rewrite app_assoc. eapply IHops; [|exact Hrun].
            by eapply Ho. }
        eapply IHargs; [|exact Hi2|exact He]. rewrite creations_app, app_length. lia.
Qed.

Lemma run_inv ops : forall h hp hp', inv h hp -> run_ops ops hp = Ok hp' -> inv (h ++ history ops) hp'.
Proof.
  induction ops as [|op ops IH]; intros h hp hp' Hi Hr; simpl in *.
  - inversion Hr; subst. unfold history. simpl. by rewrite app_nil_r.
  - apply rbind_ok in Hr as (hp1 & He & Hr). apply (exec_inv op h) in He; [|done].
    unfold history. simpl. rewrite app_assoc. eapply IH; [exact He|exact Hr].
Qed.

Lemma run_heap ops hp : run_ops ops [] = Ok hp ->
  hp = heap_of (history ops) /\ wf (history ops).
Proof.
  intros Hr. destruct (run_inv ops [] [] hp) as (H1 & H2 & _); [|done|done].
  split_and!; [done|apply wf_nil_history|]. split; [|split; [|split]]; intros *.
  - by rewrite creations_nil.
  - by rewrite elem_of_nil.
  - by rewrite elem_of_nil.
  - by rewrite elem_of_nil.
Qed.

End Facts.
