(** Facts about slices in memory *)
From Verif Require Import Base GoStr Strconv Pattern Tree Router RouterTry Slices.

Section Mem.
Context {T : Type}.
Variable zero : T.
Variable spare : nat -> nat -> nat.
Implicit Types m : mem T.
Implicit Types s t : slice.

(** a slice of an array that is there, made by a client or not *)
Definition own (b : bool) m s : Prop :=
  s_len s <= s_cap s /\
  (s_cap s = 0 \/ exists a, m !! s_arr s = Some a /\ a_client a = b /\ s_off s + s_cap s <= length (a_cells a)).
Definition disj s t : Prop := s_cap s = 0 \/ s_cap t = 0 \/ s_arr s <> s_arr t.

Lemma own_nil b m : own b m s_nil.
Proof. split; [done|by left]. Qed.
Lemma read_empty m s : s_len s = 0 -> sread m s = [].
Proof. intros E. unfold sread. rewrite E. by destruct (m !! s_arr s). Qed.
Lemma read_len b m s : own b m s -> length (sread m s) = s_len s.
Proof.
  intros [H1 [H2|(a & H2 & _ & H3)]].
  - rewrite read_empty by lia. simpl. lia.
  - unfold sread. rewrite H2, take_length, drop_length. lia.
Qed.
Lemma client_own m s : client_slice m s = true -> own true m s.
Proof.
  unfold client_slice. intros [H1 H2]%andb_true_iff. apply Nat.leb_le in H1. split; [done|].
  apply orb_true_iff in H2 as [H2|H2]; [left; by apply Nat.eqb_eq|right].
  destruct (m !! s_arr s) as [a|]; [|done]. apply andb_true_iff in H2 as [Ha Hl]. apply Nat.leb_le in Hl. by exists a.
Qed.

(** arrays that were there are as they were *)
Definition extends m m' : Prop := m `prefix_of` m'.
Lemma ext_lookup m m' i a : extends m m' -> m !! i = Some a -> m' !! i = Some a.
Proof. intros [l ->] H. by apply lookup_app_l_Some. Qed.
Lemma ext_own b m m' s : extends m m' -> own b m s -> own b m' s.
Proof.
  intros He [H1 [H2|(a & H2 & H3)]]; (split; [done|]); [by left|right].
  exists a. split; [by eapply ext_lookup|done].
Qed.
Lemma ext_read b m m' s : extends m m' -> own b m s -> sread m' s = sread m s.
Proof.
  intros He [H1 [H2|(a & H2 & H3)]].
  - rewrite !read_empty by lia. done.
  - unfold sread. rewrite H2, (ext_lookup _ _ _ _ He H2). done.
Qed.
Lemma ext_refl m : extends m m.
Proof. done. Qed.
Lemma ext_trans m1 m2 m3 : extends m1 m2 -> extends m2 m3 -> extends m1 m3.
Proof. intros H1 H2. by etrans. Qed.
Lemma ext_app m l : extends m (m ++ l).
Proof. by exists l. Qed.
(** a change of a new array *)
Lemma ext_alter m m' f i : extends m m' -> length m <= i -> extends m (alter f i m').
Proof.
  intros [l ->] Hi. exists (alter f (i - length m) l).
  rewrite alter_app_r_alt by done. done.
Qed.

(** ** put *)
Lemma put_length i vs (a : array T) : i + length vs <= length (a_cells a) -> length (a_cells (put i vs a)) = length (a_cells a).
Proof. intros H. unfold put. cbn. rewrite !app_length, take_length, drop_length. lia. Qed.
Lemma own_alter b m s f i :
  (forall a, a_client (f a) = a_client a) -> (forall a, m !! i = Some a -> length (a_cells (f a)) = length (a_cells a)) ->
  own b m s -> own b (alter f i m) s.
Proof.
  intros Hc Hl [H1 [H2|(a & H2 & H3 & H4)]]; (split; [done|]); [by left|right].
  destruct (decide (i = s_arr s)) as [->|Hn].
  - exists (f a). rewrite list_lookup_alter, H2. split; [done|]. rewrite Hc, (Hl a H2). done.
  - exists a. rewrite list_lookup_alter_ne by done. done.
Qed.
Lemma read_alter_ne m s f i : i <> s_arr s -> sread (alter f i m) s = sread m s.
Proof. intros H. unfold sread. by rewrite list_lookup_alter_ne by done. Qed.

(** ** append *)
Lemma append_spec b m s vs m' s' :
  own b m s -> b = false -> sappend zero spare m s vs = (m', s') ->
  sread m' s' = sread m s ++ vs /\ own false m' s' /\
  (forall c t, own c m t -> own c m' t) /\
  (forall c t, own c m t -> disj s t -> sread m' t = sread m t) /\
  (s_arr s' = s_arr s /\ s_cap s' = s_cap s \/ s_arr s' = length m).
Proof.
  intros Ho -> E. unfold sappend in E. pose proof Ho as [H1 H2].
  destruct (s_len s + length vs <=? s_cap s) eqn:Hc.
  - apply Nat.leb_le in Hc. injection E as <- <-.
    assert (H2' : s_cap s = 0 \/ s_cap s <> 0 /\ exists a, m !! s_arr s = Some a /\ a_client a = false /\ s_off s + s_cap s <= length (a_cells a)).
    { destruct (decide (s_cap s = 0)); [by left|right]. destruct H2; [lia|done]. }
    destruct H2' as [H2'|(Hz & a & H2' & H3 & H4)]; clear H2; rename H2' into H2.
    + assert (vs = []) as -> by (destruct vs; [done|simpl in *; lia]).
      assert (Hid : alter (put (s_off s + s_len s) []) (s_arr s) m = m).
      { apply list_eq. intros i. destruct (decide (s_arr s = i)) as [->|Hn]; [|by rewrite list_lookup_alter_ne by done].
        rewrite list_lookup_alter. destruct (m !! i) as [[c cells]|]; [|done]. cbn. unfold put. cbn. f_equal. f_equal.
        rewrite Nat.add_0_r. apply take_drop. }
      rewrite Hid. split; [|split; [|split; [done|split; [done|by left]]]].
      * rewrite !read_empty; [done|cbn; lia|cbn; simpl in *; lia].
      * split; cbn; [simpl in *; lia|by left].
    + assert (Hp : length (a_cells (put (s_off s + s_len s) vs a)) = length (a_cells a)) by (apply put_length; lia).
      assert (Ha : forall c t, own c m t -> own c (alter (put (s_off s + s_len s) vs) (s_arr s) m) t).
      { intros c t. apply own_alter; [done|]. intros a' Ha'. rewrite H2 in Ha'. injection Ha' as <-. exact Hp. }
      split; [|split; [|split; [done|split; [|by left]]]].
      * unfold sread. cbn [s_arr s_off s_len]. rewrite list_lookup_alter, H2. cbn [fmap option_fmap option_map].
        unfold put. cbn [a_cells].
        rewrite drop_app_le by (rewrite take_length; lia).
        rewrite take_app_ge by (rewrite drop_length, take_length; lia).
        rewrite drop_length, take_length. 
        f_equal.
        -- rewrite skipn_firstn_comm. f_equal. lia.
        -- replace (s_len s + length vs - ((s_off s + s_len s) `min` length (a_cells a) - s_off s)) with (length vs) by lia.
           by rewrite take_app.
      * destruct (Ha false s Ho) as [_ [Hx|Hx]]; split; cbn; [lia|lia|lia|by right].
      * intros c t [Hl Ht] Hd. destruct (decide (s_cap t = 0)) as [Hq|Hq]; [by rewrite !read_empty by lia|].
        apply read_alter_ne. destruct Hd as [Hd|[Hd|Hd]]; [|done|done].
        intros He. lia.
  - apply Nat.leb_gt in Hc. injection E as <- <-.
    assert (Ha : forall c t, own c m t -> own c (m ++ [mkArr false (sread m s ++ vs ++ repeat zero (spare (s_cap s) (s_len s + length vs)))]) t)
      by (intros c t; apply ext_own, ext_app).
    split; [|split; [|split; [done|split; [|by right]]]].
    + unfold sread at 1. cbn [s_arr s_off s_len]. rewrite list_lookup_middle by done. cbn [a_cells]. rewrite drop_0.
      rewrite app_assoc, take_app_le by (rewrite app_length, (read_len _ _ _ Ho); lia).
      apply take_ge. rewrite app_length, (read_len _ _ _ Ho). lia.
    + split; cbn [s_len s_cap]; [lia|right]. eexists. cbn [s_arr s_off]. rewrite list_lookup_middle by done. split; [done|].
      split; [done|]. cbn [a_cells]. rewrite !app_length, repeat_length, (read_len _ _ _ Ho). lia.
    + intros c t Ht _. eapply ext_read; [apply ext_app|done].
Qed.

(** appending to a slice whose array is new keeps the old arrays *)
Lemma append_ext m0 m s vs m' s' :
  extends m0 m -> own false m s -> (s_cap s = 0 \/ length m0 <= s_arr s) ->
  sappend zero spare m s vs = (m', s') ->
  extends m0 m' /\ own false m' s' /\ (s_cap s' = 0 \/ length m0 <= s_arr s') /\ sread m' s' = sread m s ++ vs.
Proof.
  intros He Ho Hn E. destruct (append_spec _ _ _ _ _ _ Ho eq_refl E) as (H1 & H2 & _ & _ & H5).
  assert (Hl : length m0 <= length m) by (apply prefix_length; done).
  split; [|split; [done|split; [|done]]].
  - unfold sappend in E. destruct (s_len s + length vs <=? s_cap s) eqn:Hc; injection E as <- <-.
    + destruct Hn as [Hn|Hn]; [|by apply ext_alter].
      apply Nat.leb_le in Hc. destruct Ho as [Ho _].
      assert (vs = []) as -> by (destruct vs; [done|simpl in *; lia]).
      assert (Hid : alter (put (s_off s + s_len s) []) (s_arr s) m = m); [|by rewrite Hid].
      apply list_eq. intros i. destruct (decide (s_arr s = i)) as [->|Hne]; [|by rewrite list_lookup_alter_ne by done].
      rewrite list_lookup_alter. destruct (m !! i) as [[c cells]|]; [|done]. cbn. unfold put. cbn. f_equal. f_equal.
      rewrite Nat.add_0_r. apply take_drop.
    + eapply ext_trans; [done|apply ext_app].
  - destruct H5 as [[Ha Hc]|Ha]; rewrite Ha; [rewrite Hc; done|right; done].
Qed.

(** make and copy of as many elements *)
Lemma make_copy_spec m0 m n vs m1 tmp :
  extends m0 m -> length vs = n -> smake zero m n = (m1, tmp) ->
  let m2 := scopy m1 tmp vs in
  extends m m1 /\ extends m m2 /\ own false m2 tmp /\ sread m2 tmp = vs /\ (s_cap tmp = 0 \/ length m0 <= s_arr tmp) /\ s_len tmp = n.
Proof.
  intros He Hn E. unfold smake in E. injection E as <- <-. cbn zeta. unfold scopy. cbn [s_off s_len s_arr].
  assert (Hl : length m0 <= length m) by (apply prefix_length; done).
  rewrite alter_app_r_alt by done. rewrite Nat.sub_diag. cbn [alter list_alter].
  split; [apply ext_app|]. split; [apply ext_app|]. split; [|split; [|split; [by right|done]]].
  - split; [done|right]. eexists. cbn [s_arr s_off s_cap]. rewrite list_lookup_middle by done. split; [done|].
    split; [done|]. rewrite put_length; cbn; rewrite ?repeat_length, ?take_length; lia.
  - unfold sread. cbn [s_arr s_off s_len]. rewrite list_lookup_middle by done. unfold put. cbn [a_cells].
    rewrite drop_0, take_0. cbn [app]. rewrite Nat.add_0_l.
    rewrite (take_ge vs) by lia. rewrite take_app_le by lia. apply take_ge. lia.
Qed.
End Mem.
