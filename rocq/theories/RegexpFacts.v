(** The search for a match finds what an expression describes. *)
From Coq Require Import NArith.
From Verif Require Import Base GoStr NetRegexp RegexpSpec RegexpRunes.
Local Open Scope nat_scope.

(** repetitions are of what they may be of *)
Fixpoint fine (r : re) : Prop :=
  match r with
  | REmpty | RSet _ _ | RBegin | REnd => True
  | RCat a b | RAlt a b => fine a /\ fine b
  | RQuest a | RGroup a => fine a
  | RStar a | RPlus a => repeatable a = true /\ fine a
  end.
Lemma repeatable_iff a : repeatable a = true <-> groups a = 0 /\ nullable a = false.
Proof. unfold repeatable. rewrite andb_true_iff, negb_true_iff, Nat.eqb_eq. done. Qed.
Lemma describes_groups r pre x post gs : fine r -> describes r pre x post gs -> length gs = groups r.
Proof.
  intros Hf Hd. induction Hd as [| | | | | | | | | | | |]; cbn [fine groups length] in *; auto.
  - destruct Hf as [Fa Fb]. rewrite app_length, IHHd1, IHHd2 by done. done.
  - destruct Hf as [Fa Fb]. rewrite app_length, repeat_length, IHHd by done. done.
  - destruct Hf as [Fa Fb]. rewrite app_length, repeat_length. f_equal. exact (IHHd Fb).
  - by rewrite repeat_length.
  - destruct Hf as [Hr _]. apply repeatable_iff in Hr as [-> _]. done.
Qed.
Lemma describes_nonempty r pre x post gs : describes r pre x post gs -> nullable r = false -> x <> [].
Proof.
  intros Hd. induction Hd; cbn; intros Hn; try discriminate; auto.
  - inversion H; subst; discriminate.
  - apply andb_false_iff in Hn as [Hn|Hn].
    + specialize (IHHd1 Hn). destruct x; done.
    + specialize (IHHd2 Hn). destruct x, y; done.
  - apply orb_false_iff in Hn as [Ha Hb]. auto.
  - apply orb_false_iff in Hn as [Ha Hb]. auto.
  - specialize (IHHd1 Hn). destruct x; done.
Qed.

Lemma in_range_iff a r : in_range a r = true <-> (N_of_ascii (fst r) <= N_of_ascii a <= N_of_ascii (snd r))%N.
Proof. unfold in_range. rewrite andb_true_iff, !N.leb_le. done. Qed.
Lemma listed_iff rs a : existsb (in_range a) rs = true <-> listed rs a.
Proof.
  rewrite existsb_exists. split.
  - intros ([lo hi] & Hin & Hr). apply in_range_iff in Hr. exists lo, hi. split; [by apply elem_of_list_In|done].
  - intros (lo & hi & Hin & Hr). exists (lo, hi). split; [by apply elem_of_list_In|]. by apply in_range_iff.
Qed.
Lemma in_set_iff neg rs a : in_set neg rs a = true <-> if neg then ~ listed rs a else listed rs a.
Proof.
  unfold in_set. pose proof (listed_iff rs a) as Hl. destruct neg, (existsb (in_range a) rs); cbn; split; try done.
  - intros H. exfalso. by apply H, Hl.
  - intros _ H. apply Hl in H. done.
  - intros _. by apply Hl.
  - intros H. by apply Hl in H.
Qed.
Lemma is_ascii_iff a : is_ascii a = true <-> (N_of_ascii a < 128)%N.
Proof. unfold is_ascii. apply N.ltb_lt. Qed.
Lemma is_ascii_not a : is_ascii a = false <-> (128 <= N_of_ascii a)%N.
Proof. unfold is_ascii. apply N.ltb_ge. Qed.
Lemma st_app (pre x : gostr) rest s : s = x ++ rest ->
  bool_decide (pre = []) && (length rest =? length s) = bool_decide (pre ++ x = []).
Proof.
  intros ->. rewrite app_length. destruct pre; cbn.
  - destruct x; cbn.
    + by rewrite Nat.eqb_refl.
    + apply Nat.eqb_neq. lia.
  - done.
Qed.

(** every way is described *)
Definition sound (f : bool -> gostr -> list (gostr * list gostr)) (r : re) : Prop :=
  forall pre s rest gs, (rest, gs) ∈ f (bool_decide (pre = [])) s -> exists x, s = x ++ rest /\ describes r pre x rest gs.
Lemma star_sound f a n : groups a = 0 -> fine a -> sound f a -> forall pre s rest gs,
  (rest, gs) ∈ star_ways f n (bool_decide (pre = [])) s -> exists x, s = x ++ rest /\ describes (RStar a) pre x rest gs.
Proof.
  intros Hg Hfi Hf. induction n as [|n IH]; intros pre s rest gs; cbn [star_ways]; [by rewrite elem_of_nil|].
  rewrite elem_of_app, elem_of_list_singleton. intros [Hin|Heq].
  - apply elem_of_list_In, in_flat_map in Hin as ([r1 g1] & H1 & H2). cbn [fst] in H2.
    apply elem_of_list_In in H1. apply Hf in H1 as (x & -> & Hx).
    revert H2. destruct (Nat.ltb_spec (length r1) (length (x ++ r1))) as [Hl|]; [|done]. intros H2.
    apply elem_of_list_In in H2.
    replace false with (bool_decide (pre ++ x = [])) in H2.
    2:{ rewrite app_length in Hl. destruct x; [cbn in Hl; lia|]. by destruct pre. }
    apply IH in H2 as (y & -> & Hy).
    assert (g1 = []) as ->.
    { apply describes_groups in Hx; [|done]. rewrite Hg in Hx. by apply nil_length_inv. }
    assert (gs = []) as ->.
    { clear -Hy. inversion Hy; done. }
    exists (x ++ y). split; [by rewrite app_assoc|]. by constructor.
  - apply pair_equal_spec in Heq as [-> ->]. exists []. split; [done|]. constructor.
Qed.
Lemma ways_sound r : fine r -> sound (ways r) r.
Proof.
  induction r as [|neg rs| | |a IHa b IHb|a IHa b IHb|a IHa|a IHa|a IHa|a IHa]; intros Hf pre s rest gs; cbn [ways]; cbn [fine] in Hf.
  - rewrite elem_of_list_singleton. intros [= -> ->]. exists []. split; [done|constructor].
  - destruct s as [|c s]; [by rewrite elem_of_nil|]. destruct (is_ascii c) eqn:Ha.
    + apply is_ascii_iff in Ha. destruct (in_set neg rs c) eqn:Hs; [|by rewrite elem_of_nil].
      rewrite elem_of_list_singleton. intros [= -> ->]. exists [c]. split; [done|]. constructor.
      constructor; [done|]. by apply in_set_iff.
    + apply is_ascii_not in Ha. destruct neg; [|by rewrite elem_of_nil].
      rewrite elem_of_list_singleton. intros Heq. apply pair_equal_spec in Heq as [-> ->].
      pose proof (rune_len_pos c s) as Hp. pose proof (rune_len_le (c :: s)) as Hle.
      exists (take (rune_len (c :: s)) (c :: s)). split; [by rewrite take_drop|]. constructor.
      destruct (rune_len (c :: s)) as [|k] eqn:Hk; [lia|]. cbn [take drop].
      apply one_rune; [done|done|]. apply character_iff. split; [done|]. cbn [app]. rewrite take_drop, Hk. cbn [length] in *. rewrite take_length. lia.
  - case_bool_decide; [|by rewrite elem_of_nil]. rewrite elem_of_list_singleton. intros [= -> ->]. subst. exists [].
    split; [done|constructor].
  - destruct s; [|by rewrite elem_of_nil]. rewrite elem_of_list_singleton. intros [= -> ->]. exists [].
    split; [done|constructor].
  - destruct Hf as [Fa Fb]. intros Hin. apply elem_of_list_In, in_flat_map in Hin as ([r1 g1] & H1 & H2). cbn [fst snd] in H2.
    apply elem_of_list_In in H1. apply (IHa Fa) in H1 as (x & -> & Hx).
    apply in_map_iff in H2 as ([r2 g2] & Heq & H2). cbn in Heq. apply pair_equal_spec in Heq as [-> <-].
    rewrite (st_app pre x r1) in H2 by done. apply elem_of_list_In, (IHb Fb) in H2 as (y & -> & Hy).
    exists (x ++ y). split; [by rewrite app_assoc|]. by constructor.
  - destruct Hf as [Fa Fb]. rewrite elem_of_app. intros [Hin|Hin]; apply elem_of_list_In, in_map_iff in Hin as ([r1 g1] & Heq & H1);
      cbn in Heq; apply pair_equal_spec in Heq as [-> <-]; apply elem_of_list_In in H1.
    + apply (IHa Fa) in H1 as (x & -> & Hx). exists x. split; [done|]. by constructor.
    + apply (IHb Fb) in H1 as (x & -> & Hx). exists x. split; [done|]. by constructor.
  - rewrite elem_of_app, elem_of_list_singleton. intros [H1|Heq].
    + apply (IHa Hf) in H1 as (x & -> & Hx). exists x. split; [done|]. by constructor.
    + apply pair_equal_spec in Heq as [-> ->]. exists []. split; [done|apply d_none].
  - destruct Hf as [Hr Fa]. apply repeatable_iff in Hr as [Hg _]. apply star_sound; auto.
  - destruct Hf as [Hr Fa]. apply repeatable_iff in Hr as [Hg _].
    intros Hin. apply elem_of_list_In, in_flat_map in Hin as ([r1 g1] & H1 & H2). cbn [fst snd] in H2.
    apply elem_of_list_In in H1. apply (IHa Fa) in H1 as (x & -> & Hx).
    rewrite (st_app pre x r1) in H2 by done. apply elem_of_list_In in H2.
    apply (star_sound _ a) in H2 as (y & -> & Hy); auto.
    assert (g1 = []) as ->.
    { apply describes_groups in Hx; [|done]. rewrite Hg in Hx. by apply nil_length_inv. }
    assert (gs = []) as ->.
    { clear -Hy. inversion Hy; done. }
    exists (x ++ y). split; [by rewrite app_assoc|]. by constructor.
  - intros Hin. apply elem_of_list_In, in_map_iff in Hin as ([r1 g1] & Heq & H1). cbn in Heq.
    apply pair_equal_spec in Heq as [-> <-]. apply elem_of_list_In, (IHa Hf) in H1 as (x & -> & Hx).
    exists x. split; [done|]. rewrite app_length, Nat.add_sub, take_app. by constructor.
Qed.

(** everything described is a way *)
Lemma star_complete a : fine a -> repeatable a = true ->
  (forall pre x post gs, describes a pre x post gs -> (post, gs) ∈ ways a (bool_decide (pre = [])) (x ++ post)) ->
  forall n pre x post gs, describes (RStar a) pre x post gs -> length (x ++ post) < n ->
  (post, gs) ∈ star_ways (ways a) n (bool_decide (pre = [])) (x ++ post).
Proof.
  intros Hfi Hr Ha. apply repeatable_iff in Hr as [Hg Hn].
  induction n as [|n IH]; intros pre x post gs Hd Hl; [lia|]. cbn [star_ways]. rewrite elem_of_app, elem_of_list_singleton.
  inversion Hd; subst; [by right|]. left.
  apply elem_of_list_In, in_flat_map. exists (y ++ post, []).
  match goal with H : describes a _ _ _ _ |- _ => pose proof (describes_nonempty _ _ _ _ _ H Hn) as Hne; apply Ha in H as Hw end.
  rewrite <- app_assoc. split; [by apply elem_of_list_In|]. cbn [fst].
  assert (length (y ++ post) < length (x0 ++ y ++ post)) as Hlt by (rewrite (app_length x0); destruct x0; [done|cbn; lia]).
  destruct (Nat.ltb_spec (length (y ++ post)) (length (x0 ++ y ++ post))); [|lia].
  apply elem_of_list_In. replace false with (bool_decide (pre ++ x0 = [])) by (destruct x0; [done|by destruct pre]).
  apply IH; [done|]. rewrite <- app_assoc in Hl. lia.
Qed.
Lemma ways_complete r : fine r -> forall pre x post gs,
  describes r pre x post gs -> (post, gs) ∈ ways r (bool_decide (pre = [])) (x ++ post).
Proof.
  induction r as [|neg rs| | |a IHa b IHb|a IHa b IHb|a IHa|a IHa|a IHa|a IHa]; intros Hf pre x post gs Hd; cbn [ways]; cbn [fine] in Hf.
  - inversion Hd; subst. by left.
  - inversion Hd as [|? ? ? ? ? Ho| | | | | | | | | | |]; subst. inversion Ho as [c post' H1 H2|c y post' H1 H2 H3]; subst; cbn [app].
    + apply is_ascii_iff in H1. rewrite H1. apply in_set_iff in H2. rewrite H2. left.
    + apply is_ascii_not in H2. rewrite H2. apply character_iff in H3 as [_ H3]. change (c :: y ++ post) with ((c :: y) ++ post). rewrite <- H3, drop_app. left.
  - inversion Hd; subst. left.
  - inversion Hd; subst. left.
  - destruct Hf as [Fa Fb]. inversion Hd; subst. apply elem_of_list_In, in_flat_map. exists (y ++ post, ga).
    rewrite <- app_assoc. split; [by apply elem_of_list_In, IHa|]. cbn [fst snd]. apply in_map_iff. exists (post, gb). split; [done|].
    rewrite (st_app pre x0 (y ++ post)) by done. by apply elem_of_list_In, IHb.
  - destruct Hf as [Fa Fb]. apply elem_of_app. inversion Hd; subst.
    + left. apply elem_of_list_In, in_map_iff. exists (post, ga). split; [done|]. by apply elem_of_list_In, IHa.
    + right. apply elem_of_list_In, in_map_iff. exists (post, gb). split; [done|]. by apply elem_of_list_In, IHb.
  - apply elem_of_app. inversion Hd; subst; [left; by apply IHa|right; left].
  - destruct Hf as [Hr Fa]. apply star_complete; auto.
  - destruct Hf as [Hr Fa]. inversion Hd; subst. apply elem_of_list_In, in_flat_map. exists (y ++ post, []).
    rewrite <- app_assoc. split; [by apply elem_of_list_In, IHa|]. cbn [fst].
    rewrite (st_app pre x0 (y ++ post)) by done. apply elem_of_list_In. apply star_complete; auto.
  - inversion Hd; subst. apply elem_of_list_In, in_map_iff. exists (post, ga). cbn. split.
    + by rewrite app_length, Nat.add_sub, take_app.
    + by apply elem_of_list_In, IHa.
Qed.

(** ** Searching *)
Definition occurs_at (r : re) (pre s u m : gostr) (gs : list gostr) : Prop :=
  exists v, s = u ++ m ++ v /\ whole u (m ++ v) /\ describes r (pre ++ u) m v gs.
Lemma occurs_here r pre s m v gs : s = m ++ v -> describes r (pre ++ []) m v gs -> occurs_at r pre s [] m gs.
Proof. intros -> Hd. exists v. split_and!; [done|constructor|done]. Qed.
(** an occurrence that does not begin at once begins behind the first character *)
Lemma occurs_later r pre s u m gs : occurs_at r pre s u m gs -> u <> [] ->
  exists u', u = take (rune_len s) s ++ u' /\ occurs_at r (pre ++ take (rune_len s) s) (drop (rune_len s) s) u' m gs.
Proof.
  intros (v & -> & Hw & Hd) Hu. inversion Hw as [|x u' post Hc Hw']; subst; [done|]. apply character_iff in Hc as [Hx Hl].
  rewrite <- !app_assoc. rewrite <- Hl. rewrite take_app, drop_app. exists u'. split; [done|].
  exists v. split_and!; [done|done|]. by rewrite <- app_assoc.
Qed.
Lemma occurs_before r pre s u' m gs : s <> [] ->
  occurs_at r (pre ++ take (rune_len s) s) (drop (rune_len s) s) u' m gs ->
  occurs_at r pre s (take (rune_len s) s ++ u') m gs.
Proof.
  intros Hs (v & Hv & Hw & Hd). exists v.
  assert (s = take (rune_len s) s ++ u' ++ m ++ v) as Heq by (rewrite <- Hv; by rewrite take_drop).
  split_and!.
  - by rewrite <- app_assoc.
  - constructor; [|done]. apply character_iff. split.
    + destruct s as [|a s]; [done|]. pose proof (rune_len_pos a s). destruct (rune_len (a :: s)); [lia|]. done.
    + rewrite <- Heq. rewrite take_length. pose proof (rune_len_le s). lia.
  - by rewrite app_assoc.
Qed.
Lemma search_spec r : fine r -> forall n pre s, length s < n ->
  match search r n (bool_decide (pre = [])) s with
  | Some (m :: gs) => exists u, occurs_at r pre s u m gs /\ (forall u' m' gs', occurs_at r pre s u' m' gs' -> length u <= length u') /\
      exists v l, s = u ++ m ++ v /\ ways r (bool_decide (pre ++ u = [])) (m ++ v) = (v, gs) :: l
  | Some [] => False
  | None => forall u m gs, ~ occurs_at r pre s u m gs
  end.
Proof.
  intros Hf. induction n as [|n IH]; intros pre s Hl; [lia|]. cbn [search].
  destruct (ways r (bool_decide (pre = [])) s) as [|[rest gs] l] eqn:Hw.
  - assert (forall m gs, ~ occurs_at r pre s [] m gs) as Hno.
    { intros m gs (v & -> & _ & Hd). rewrite app_nil_r in Hd. apply ways_complete in Hd; [|done].
      assert ((v, gs) ∈ @nil (gostr * list gostr)) as Hn by (rewrite <- Hw; exact Hd). by apply elem_of_nil in Hn. }
    destruct s as [|a s].
    + intros u m gs Ho. destruct u; [by eapply Hno|]. destruct Ho as (v & Hv & _). done.
    + pose proof (rune_len_pos a s) as Hp. set (k := rune_len (a :: s)) in *.
      specialize (IH (pre ++ take k (a :: s)) (drop k (a :: s))).
      replace (bool_decide (pre ++ take k (a :: s) = [])) with false in IH
        by (destruct k; [lia|]; destruct pre; done).
      assert (length (drop k (a :: s)) < n) as Hd by (rewrite drop_length; cbn [length] in *; lia).
      specialize (IH Hd). destruct (search r n false (drop k (a :: s))) as [[|m gs]|]; [done| |].
      * destruct IH as (u & Ho & Hmin & v & l & Hv & Hh). exists (take k (a :: s) ++ u). split; [by apply occurs_before|]. split; cycle 1.
        { exists v, l. split; [rewrite <- app_assoc, <- Hv; by rewrite take_drop|]. by rewrite app_assoc. }
        intros u' m' gs' Ho'. destruct u' as [|b u'']; [by apply Hno in Ho'|].
        apply occurs_later in Ho' as (u1 & -> & Ho'); [|done]. apply Hmin in Ho'. rewrite !app_length. fold k. lia.
      * intros u m gs Ho. destruct u as [|b u']; [by apply Hno in Ho|].
        apply occurs_later in Ho as (u1 & _ & Ho'); [|done]. by apply IH in Ho'.
  - assert ((rest, gs) ∈ ways r (bool_decide (pre = [])) s) as Hin by (rewrite Hw; left).
    apply ways_sound in Hin as (x & -> & Hd); [|done]. rewrite app_length, Nat.add_sub, take_app.
    exists []. split.
    + apply (occurs_here _ _ _ _ rest); [done|]. by rewrite app_nil_r.
    + split; [intros; cbn; lia|]. exists rest, l. split; [done|]. rewrite app_nil_r. exact Hw.
Qed.
Lemma search_head r s m gs : fine r -> search r (S (length s)) true s = Some (m :: gs) ->
  exists u v l, first_occurs r s u m gs /\ s = u ++ m ++ v /\ ways r (bool_decide (u = [])) (m ++ v) = (v, gs) :: l.
Proof.
  intros Hf Hs. pose proof (search_spec r Hf (S (length s)) [] s ltac:(lia)) as H.
  change (bool_decide ([] = [])) with true in H. rewrite Hs in H. destruct H as (u & Ho & Hm & v & l & Hv & Hw).
  exists u, v, l. split_and!; done.
Qed.
Lemma search_some r s m gs : fine r -> search r (S (length s)) true s = Some (m :: gs) -> exists u, first_occurs r s u m gs.
Proof. intros Hf Hs. apply search_head in Hs as (u & _ & _ & Hu & _); eauto. Qed.
Lemma search_iff r s : fine r -> is_Some (search r (S (length s)) true s) <-> exists u m gs, occurs r s u m gs.
Proof.
  intros Hf. pose proof (search_spec r Hf (S (length s)) [] s ltac:(lia)) as H.
  change (bool_decide ([] = [])) with true in H.
  destruct (search r (S (length s)) true s) as [[|m gs]|]; [done| |].
  - destruct H as (u & Ho & _). split; [by eauto 10|done].
  - split; [by intros []|]. intros (u & m & gs & Ho). by apply H in Ho.
Qed.
Lemma search_groups r s l : fine r -> search r (S (length s)) true s = Some l -> length l = S (groups r).
Proof.
  intros Hf Hs. destruct l as [|m gs].
  - pose proof (search_spec r Hf (S (length s)) [] s ltac:(lia)) as H. change (bool_decide ([] = [])) with true in H. by rewrite Hs in H.
  - apply search_some in Hs as (u & (v & _ & _ & Hd) & _); [|done]. cbn. f_equal. by apply describes_groups in Hd.
Qed.
