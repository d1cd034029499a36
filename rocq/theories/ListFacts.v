(** Lists: precedence, insertion by kind, first occurrences. *)
From Verif Require Import Base GoStr Strconv Pattern Tree.

Section Before.
Context {A : Type}.
Implicit Types l : list A.

(** x occurs in l with an occurrence of y behind it *)
Definition before l x y : Prop := exists l1 l2, l = l1 ++ x :: l2 /\ y ∈ l2.

Lemma before_nil x y : ~ before [] x y.
Proof. intros (l1 & l2 & Hl & _). by destruct l1. Qed.

Lemma before_cons a l x y : before (a :: l) x y <-> (x = a /\ y ∈ l) \/ before l x y.
Proof.
  split.
  - intros (l1 & l2 & Hl & Hy). destruct l1 as [|b l1]; inversion Hl; subst.
    + by left.
    + right. by exists l1, l2.
  - intros [[-> Hy]|(l1 & l2 & -> & Hy)].
    + by exists [], l.
    + by exists (a :: l1), l2.
Qed.

Lemma before_snoc l z x y : before (l ++ [z]) x y <-> before l x y \/ (y = z /\ x ∈ l).
Proof.
  induction l as [|a l IH]; simpl.
  - rewrite before_cons. split.
    + intros [[_ Hy]|Hb]; [by apply elem_of_nil in Hy|by apply before_nil in Hb].
    + intros [Hb|[_ Hx]]; [by apply before_nil in Hb|by apply elem_of_nil in Hx].
  - rewrite !before_cons, IH, elem_of_app, elem_of_list_singleton, elem_of_cons. naive_solver.
Qed.



End Before.

Section Insert.
Context {A : Type} (typ : A -> ptype).

Definition tle (x y : A) : Prop := ptype_n (typ x) <= ptype_n (typ y).
Definition tlt (x y : A) : Prop := ptype_n (typ x) < ptype_n (typ y).

Lemma insert_elem z l x : x ∈ insert_by_typ typ z l <-> x = z \/ x ∈ l.
Proof.
  induction l as [|a l IH]; simpl.
  - set_solver.
  - destruct (ptype_ltb (typ z) (typ a)).
    + set_solver.
    + rewrite !elem_of_cons, IH. naive_solver.
Qed.

Lemma insert_before z l x y :
  (forall a b, before l a b -> tle a b) ->
  before (insert_by_typ typ z l) x y ->
  before l x y \/ (x = z /\ y ∈ l /\ tlt z y) \/ (y = z /\ x ∈ l /\ tle x z).
Proof.
  induction l as [|a l IH]; simpl; intros Hs Hb.
  - apply before_cons in Hb as [[_ Hy]|Hb]; [by apply elem_of_nil in Hy|by apply before_nil in Hb].
  - destruct (ptype_ltb (typ z) (typ a)) eqn:E.
    + apply Nat.ltb_lt in E. apply before_cons in Hb as [[-> Hy]|Hb]; [|by left].
      right. left. split; [done|]. split; [done|].
      apply elem_of_cons in Hy as [->|Hy]; [done|].
      assert (tle a y) as Hay by (apply Hs; rewrite before_cons; by left).
      unfold tle, tlt in *. lia.
    + apply Nat.ltb_ge in E. apply before_cons in Hb as [[-> Hy]|Hb].
      * apply insert_elem in Hy as [->|Hy].
        -- right. right. split; [done|]. split; [by left|]. unfold tle. lia.
        -- left. rewrite before_cons. by left.
      * apply IH in Hb as [Hb|[(-> & Hy & Ht)|(-> & Hx & Ht)]].
        -- left. rewrite before_cons. by right.
        -- right. left. split; [done|]. split; [by right|done].
        -- right. right. split; [done|]. split; [by right|done].
        -- intros b c Hbc. apply Hs. rewrite before_cons. by right.
Qed.

(** the list obtained by inserting the elements one after the other *)
Definition order_by (l : list A) : list A :=
  fold_left (fun acc x => insert_by_typ typ x acc) l [].

Lemma order_snoc l z : order_by (l ++ [z]) = insert_by_typ typ z (order_by l).
Proof. unfold order_by. by rewrite fold_left_app. Qed.

Lemma order_elem l x : x ∈ order_by l <-> x ∈ l.
Proof.
  induction l as [|z l IH] using rev_ind; [done|].
  rewrite order_snoc, insert_elem, IH, elem_of_app, elem_of_list_singleton. tauto.
Qed.

Lemma order_sorted l x y : before (order_by l) x y -> tle x y.
Proof.
  revert x y. induction l as [|z l IH] using rev_ind; intros x y Hb.
  - by apply before_nil in Hb.
  - rewrite order_snoc in Hb. apply insert_before in Hb; [|exact IH].
    destruct Hb as [Hb|[(-> & Hy & Ht)|(-> & Hx & Ht)]].
    + by apply IH.
    + unfold tle, tlt in *. lia.
    + done.
Qed.

Lemma order_before l x y :
  before (order_by l) x y -> tlt x y \/ (typ x = typ y /\ before l x y).
Proof.
  revert x y. induction l as [|z l IH] using rev_ind; intros x y Hb.
  - by apply before_nil in Hb.
  - rewrite order_snoc in Hb. apply insert_before in Hb; [|intros a b; apply order_sorted].
    destruct Hb as [Hb|[(-> & Hy & Ht)|(-> & Hx & Ht)]].
    + apply IH in Hb as [Hb|[Heq Hb]]; [by left|right]. split; [done|].
      apply before_snoc. by left.
    + by left.
    + unfold tle, tlt in *. destruct (decide (typ x = typ z)) as [Heq|Hne].
      * right. split; [done|]. apply before_snoc. right. split; [done|]. by rewrite order_elem in Hx.
      * left. destruct (typ x), (typ z); simpl in *; try lia; done.
Qed.

Lemma insert_NoDup z l : z ∉ l -> NoDup l -> NoDup (insert_by_typ typ z l).
Proof.
  induction l as [|a l IH]; simpl; intros Hz Hn.
  - constructor; [set_solver|constructor].
  - inversion Hn as [|? ? Ha Hl]; subst. destruct (ptype_ltb (typ z) (typ a)).
    + by constructor.
    + constructor.
      * rewrite insert_elem. set_solver.
      * apply IH; [set_solver|done].
Qed.

Lemma order_NoDup l : NoDup l -> NoDup (order_by l).
Proof.
  induction l as [|z l IH] using rev_ind; intros Hn; [constructor|].
  rewrite order_snoc. apply NoDup_app in Hn as (H1 & H2 & _).
  apply insert_NoDup; [|by apply IH]. rewrite order_elem. intros Hz.
  by apply (H2 z Hz), elem_of_list_singleton.
Qed.
End Insert.

Lemma insert_map {A B} (tA : A -> ptype) (tB : B -> ptype) (f : A -> B) z l :
  (forall a, tB (f a) = tA a) ->
  map f (insert_by_typ tA z l) = insert_by_typ tB (f z) (map f l).
Proof.
  intros Ht. induction l as [|a l IH]; simpl; [done|]. rewrite !Ht.
  destruct (ptype_ltb (tA z) (tA a)); simpl; [done|]. by rewrite IH.
Qed.

Section Firsts.
Context {A K : Type} `{EqDecision K} (key : A -> K).

(** keep the first element of each key *)
Definition firsts (l : list A) : list A :=
  fold_left (fun acc x => if decide (key x ∈ map key acc) then acc else acc ++ [x]) l [].

Lemma firsts_snoc l z :
  firsts (l ++ [z]) =
  if decide (key z ∈ map key (firsts l)) then firsts l else firsts l ++ [z].
Proof. unfold firsts. by rewrite fold_left_app. Qed.

Lemma firsts_elem l x : x ∈ firsts l -> x ∈ l.
Proof.
  induction l as [|z l IH] using rev_ind; [done|]. rewrite firsts_snoc.
  case_decide; set_solver.
Qed.

Lemma firsts_keys l k : k ∈ map key (firsts l) <-> k ∈ map key l.
Proof.
  revert k. induction l as [|z l IH] using rev_ind; intros k; [done|]. rewrite firsts_snoc, map_app.
  case_decide as Hd.
  - rewrite IH. rewrite IH in Hd. rewrite elem_of_app. split; [by left|].
    intros [?|Hk]; [done|]. simpl in Hk. apply elem_of_list_singleton in Hk as ->. done.
  - rewrite map_app, !elem_of_app, IH. done.
Qed.

Lemma firsts_NoDup l : NoDup (map key (firsts l)).
Proof.
  induction l as [|z l IH] using rev_ind; [constructor|]. rewrite firsts_snoc.
  case_decide as Hd; [done|]. rewrite map_app. apply NoDup_app. split_and!; [done| |].
  - intros k Hk Hz. simpl in Hz. apply elem_of_list_singleton in Hz as ->. done.
  - simpl. apply NoDup_singleton.
Qed.

Lemma firsts_first l x :
  x ∈ firsts l <-> exists l1 l2, l = l1 ++ x :: l2 /\ key x ∉ map key l1.
Proof.
  revert x. induction l as [|z l IH] using rev_ind; intros x.
  - split; [intros Hx; by apply elem_of_nil in Hx|]. intros (l1 & l2 & Hl & _). by destruct l1.
  - rewrite firsts_snoc. split.
    + intros Hx.
      assert (x ∈ firsts l \/ (x = z /\ key z ∉ map key (firsts l))) as [Hx'|[-> Hz]].
      { case_decide; [by left|]. apply elem_of_app in Hx as [?|Hx]; [by left|].
        apply elem_of_list_singleton in Hx. by right. }
      * apply IH in Hx' as (l1 & l2 & -> & Hk). exists l1, (l2 ++ [z]).
        rewrite <- app_assoc. done.
      * exists l, []. split; [done|]. by rewrite <- firsts_keys.
    + intros (l1 & l2 & Hl & Hk).
      destruct l2 as [|y l2 _] using rev_ind.
      * apply app_inj_tail in Hl as [-> ->]. rewrite decide_False by (by rewrite firsts_keys).
        apply elem_of_app. right. by left.
      * rewrite app_comm_cons, app_assoc in Hl. apply app_inj_tail in Hl as [-> ->].
        assert (x ∈ firsts (l1 ++ x :: l2)) as Hx by (apply IH; by exists l1, l2).
        case_decide; [done|]. apply elem_of_app. by left.
Qed.

Lemma firsts_before l x y :
  before (firsts l) x y ->
  key x <> key y /\ exists l1 l2, l = l1 ++ x :: l2 /\ key y ∉ map key l1.
Proof.
  revert x y. induction l as [|z l IH] using rev_ind; intros x y Hb.
  - by apply before_nil in Hb.
  - rewrite firsts_snoc in Hb.
    assert (before (firsts l) x y \/ (y = z /\ x ∈ firsts l /\ key z ∉ map key (firsts l)))
      as [Hb'|(-> & Hx & Hz)].
    { case_decide; [by left|]. apply before_snoc in Hb as [?|[-> Hx]]; [by left|by right]. }
    + apply IH in Hb' as (Hne & l1 & l2 & -> & Hk). split; [done|].
      exists l1, (l2 ++ [z]). rewrite <- app_assoc. done.
    + split.
      { intros Heq. apply Hz. rewrite <- Heq. by apply elem_of_list_fmap_1. }
      apply firsts_elem in Hx. apply elem_of_list_split in Hx as (l1 & l2 & ->).
      exists l1, (l2 ++ [z]). rewrite <- app_assoc. split; [done|].
      intros Hk. apply Hz, firsts_keys. rewrite map_app. apply elem_of_app. by left.
Qed.
End Firsts.

Lemma find_split_Some {A} (f : A -> bool) l a x b :
  find_split f l = Some (a, x, b) -> l = a ++ x :: b /\ f x = true /\ Forall (fun y => f y = false) a.
Proof.
  revert a x b. induction l as [|y l IH]; simpl; intros a x b Hf; [discriminate|].
  destruct (f y) eqn:E.
  - inversion Hf; subst. done.
  - destruct (find_split f l) as [[[a' x'] b']|] eqn:E'; [|discriminate].
    inversion Hf; subst. destruct (IH _ _ _ eq_refl) as (-> & Hx & Ha).
    split_and!; [done|done|by constructor].
Qed.

Lemma find_split_None {A} (f : A -> bool) l x : find_split f l = None -> x ∈ l -> f x = false.
Proof.
  induction l as [|y l IH]; simpl; intros Hf Hx; [by apply elem_of_nil in Hx|].
  destruct (f y) eqn:E; [discriminate|].
  destruct (find_split f l) as [[[a' x'] b']|] eqn:E'; [discriminate|].
  apply elem_of_cons in Hx as [->|Hx]; [done|]. by apply IH.
Qed.

Lemma omap_split {A B} (f : A -> option B) l l1 y l2 :
  omap f l = l1 ++ y :: l2 ->
  exists a x b, l = a ++ x :: b /\ omap f a = l1 /\ f x = Some y /\ omap f b = l2.
Proof.
  revert l1. induction l as [|z l IH]; simpl; intros l1 Ho; [by destruct l1|].
  destruct (f z) as [w|] eqn:E.
  - destruct l1 as [|v l1]; simpl in Ho; inversion Ho; subst.
    + by exists [], z, l.
    + destruct (IH _ H1) as (a & x & b & -> & <- & Hx & <-).
      exists (z :: a), x, b. simpl. rewrite E. done.
  - destruct (IH _ Ho) as (a & x & b & -> & <- & Hx & <-).
    exists (z :: a), x, b. simpl. rewrite E. done.
Qed.

Lemma last_map_Some {A} (l : list A) (x : A) :
  List.last (map Some l) None = Some x <-> exists l', l = l' ++ [x].
Proof.
  destruct l as [|y l _] using rev_ind.
  - simpl. split; [discriminate|]. intros ([|] & Hl); discriminate.
  - rewrite map_app. simpl. rewrite last_last. split.
    + intros Hy. inversion Hy; subst. by exists l.
    + intros (l' & Hl). apply app_inj_tail in Hl as [_ ->]. done.
Qed.
Lemma last_map_None {A} (l : list A) : List.last (map Some l) None = None <-> l = [].
Proof.
  destruct l as [|y l _] using rev_ind; [done|]. rewrite map_app. simpl. rewrite last_last.
  split; [discriminate|]. intros Hl. by destruct l.
Qed.
