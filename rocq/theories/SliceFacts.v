(** Registration with slices in memory is registration with lists, unless a
    client overwrites handlers it has passed. *)
From Verif Require Import Base GoStr Strconv Pattern Tree Router RouterTry RouterTryFacts Slices SliceSpec SliceMem.

Section Facts.
Context {A : Type}.
Variable spare : nat -> nat -> nat.
Local Notation sexec := (sexec (A := A) spare).
Local Notation sbefores := (sbefores (A := A) spare).
Local Notation sadd := (sadd (A := A) spare).
Implicit Types st : sstate A.

Lemma disj_sym s t : disj s t -> disj t s.
Proof. unfold disj. intros [?|[?|?]]; auto. Qed.
Lemma disj_client {T} (m : mem T) s t : own false m s -> own true m t -> disj s t.
Proof.
  intros [_ [H|(a & H1 & H2 & _)]] [_ [H'|(a' & H1' & H2' & _)]]; unfold disj; auto.
  right; right. intros E. rewrite E, H1' in H1. injection H1 as ->. congruence.
Qed.
Lemma disj_nil s : disj s s_nil.
Proof. unfold disj. auto. Qed.
Lemma disj_new {T} (m : mem T) c s s' t :
  own c m t -> disj s t -> s_arr s' = s_arr s /\ s_cap s' = s_cap s \/ s_arr s' = length m -> disj s' t.
Proof.
  intros [_ Ht] Hd [[E1 E2]|E].
  - unfold disj in *. rewrite E1, E2. done.
  - destruct Ht as [Ht|(a & Ht & _)]; [by right; left|]. right; right. apply lookup_lt_Some in Ht. lia.
Qed.

Record Inv st : Prop := mkInv {
  inv_own i x : st_rs st !! i = Some x ->
    own false (st_i st) (sr_gbefores x) /\ own false (st_i st) (sr_befores x) /\
    own true (st_i st) (sr_handlers x) /\ own false (st_r st) (sr_sub x);
  inv_same i j x y : st_rs st !! i = Some x -> st_rs st !! j = Some y -> i <> j ->
    disj (sr_gbefores x) (sr_gbefores y) /\ disj (sr_befores x) (sr_befores y) /\ disj (sr_sub x) (sr_sub y);
  inv_other i j x y : st_rs st !! i = Some x -> st_rs st !! j = Some y -> disj (sr_gbefores x) (sr_befores y)
}.

Lemma inv_empty : Inv (st_empty (A := A)).
Proof. split; intros; done. Qed.

Lemma abs_lookup st i : abs st !! i = abs_router st <$> st_rs st !! i.
Proof. unfold abs. exact (list_lookup_fmap (abs_router st) (st_rs st) i). Qed.
Lemma abs_length st : length (abs st) = length (st_rs st).
Proof. unfold abs. apply map_length. Qed.

(** ** One router gets more middleware *)
Lemma step_befores st r vs : Inv st ->
  Inv (sbefores st r vs) /\ abs (sbefores st r vs) = alter (set_befores (fun l => l ++ vs)) r (abs st).
Proof.
  intros [Io Is Ix]. unfold Slices.sbefores. destruct (st_rs st !! r) as [x|] eqn:Er.
  2:{ split; [done|]. apply list_eq. intros i. destruct (decide (r = i)) as [<-|Hn].
      - rewrite list_lookup_alter, abs_lookup, Er. done.
      - by rewrite list_lookup_alter_ne by done. }
  destruct (sappend INil spare (st_i st) (sr_befores x) vs) as [m b] eqn:Ea.
  destruct (Io _ _ Er) as (Og & Ob & Oh & Osub).
  destruct (append_spec _ _ _ _ _ _ _ _ Ob eq_refl Ea) as (Hr & Hb & Hown & Hread & Hnew).
  assert (L : forall i y, alter (set_sb b) r (st_rs st) !! i = Some y ->
    exists y0, st_rs st !! i = Some y0 /\ (i = r /\ y = set_sb b y0 /\ y0 = x \/ i <> r /\ y = y0)).
  { intros i y. destruct (decide (i = r)) as [->|Hn].
    - rewrite list_lookup_alter, Er. intros [= <-]. exists x. split; [done|]. left. done.
    - rewrite list_lookup_alter_ne by done. intros E. exists y. split; [done|]. right. done. }
  split.
  - split; cbn [st_rs st_i st_r].
    + intros i y Hy. destruct (L _ _ Hy) as (y0 & Hy0 & [(-> & -> & ->)|(Hn & ->)]).
      * cbn. split; [by apply Hown|]. split; [done|]. split; [by apply Hown|done].
      * destruct (Io _ _ Hy0) as (? & ? & ? & ?). split; [by apply Hown|]. split; [by apply Hown|]. split; [by apply Hown|done].
    + intros i j y z Hy Hz Hij.
      destruct (L _ _ Hy) as (y0 & Hy0 & Cy), (L _ _ Hz) as (z0 & Hz0 & Cz).
      destruct (Is _ _ _ _ Hy0 Hz0 Hij) as (D1 & D2 & D3).
      destruct Cy as [(-> & -> & ->)|(Hn & ->)], Cz as [(-> & -> & ->)|(Hn' & ->)]; [done|..].
      * cbn. split; [done|]. split; [|done]. eapply disj_new; [apply (Io _ _ Hz0)|done|done].
      * cbn. split; [done|]. split; [|done]. apply disj_sym. eapply disj_new; [apply (Io _ _ Hy0)|by apply disj_sym|done].
      * done.
    + intros i j y z Hy Hz.
      destruct (L _ _ Hy) as (y0 & Hy0 & Cy), (L _ _ Hz) as (z0 & Hz0 & Cz).
      pose proof (Ix _ _ _ _ Hy0 Hz0) as D.
      assert (E : sr_gbefores y = sr_gbefores y0) by (destruct Cy as [(_ & -> & _)|(_ & ->)]; done). rewrite E.
      destruct Cz as [(-> & -> & ->)|(Hn' & ->)]; [|done].
      cbn. apply disj_sym. eapply disj_new; [apply (Io _ _ Hy0)|by apply disj_sym|done].
  - apply list_eq. intros i. rewrite abs_lookup. cbn [st_rs]. destruct (decide (r = i)) as [<-|Hn].
    + rewrite !list_lookup_alter, abs_lookup, Er. cbn. f_equal. unfold abs_router, set_befores. cbn.
      rewrite Hr. f_equal.
      * eapply Hread; [done|]. apply disj_sym. eapply Ix; done.
      * eapply Hread; [done|]. eapply disj_client; done.
    + rewrite !list_lookup_alter_ne, abs_lookup by done. destruct (st_rs st !! i) as [y|] eqn:Ey; [|done]. cbn. f_equal.
      destruct (Io _ _ Ey) as (? & ? & ? & ?). unfold abs_router. cbn. f_equal.
      * eapply Hread; [done|]. apply disj_sym. eapply Ix; done.
      * eapply Hread; [done|]. eapply Is; [done|done|congruence].
      * eapply Hread; [done|]. eapply disj_client; done.
Qed.

Lemma step_gbefores st r x vs m g : Inv st -> st_rs st !! r = Some x ->
  sappend INil spare (st_i st) (sr_gbefores x) vs = (m, g) ->
  let st' := mkSt (alter (set_sgb g) r (st_rs st)) m (st_h st) (st_r st) (st_hit st) in
  Inv st' /\ abs st' = alter (set_gbefores (fun l => l ++ vs)) r (abs st).
Proof.
  intros [Io Is Ix] Er Ea. cbn zeta.
  destruct (Io _ _ Er) as (Og & Ob & Oh & Osub).
  destruct (append_spec _ _ _ _ _ _ _ _ Og eq_refl Ea) as (Hr & Hb & Hown & Hread & Hnew).
  assert (L : forall i y, alter (set_sgb g) r (st_rs st) !! i = Some y ->
    exists y0, st_rs st !! i = Some y0 /\ (i = r /\ y = set_sgb g y0 /\ y0 = x \/ i <> r /\ y = y0)).
  { intros i y. destruct (decide (i = r)) as [->|Hn].
    - rewrite list_lookup_alter, Er. intros [= <-]. exists x. split; [done|]. left. done.
    - rewrite list_lookup_alter_ne by done. intros E. exists y. split; [done|]. right. done. }
  split.
  - split; cbn [st_rs st_i st_r].
    + intros i y Hy. destruct (L _ _ Hy) as (y0 & Hy0 & [(-> & -> & ->)|(Hn & ->)]).
      * cbn. split; [done|]. split; [by apply Hown|]. split; [by apply Hown|done].
      * destruct (Io _ _ Hy0) as (? & ? & ? & ?). split; [by apply Hown|]. split; [by apply Hown|]. split; [by apply Hown|done].
    + intros i j y z Hy Hz Hij.
      destruct (L _ _ Hy) as (y0 & Hy0 & Cy), (L _ _ Hz) as (z0 & Hz0 & Cz).
      destruct (Is _ _ _ _ Hy0 Hz0 Hij) as (D1 & D2 & D3).
      destruct Cy as [(-> & -> & ->)|(Hn & ->)], Cz as [(-> & -> & ->)|(Hn' & ->)]; [done|..].
      * cbn. split; [|done]. eapply disj_new; [apply (Io _ _ Hz0)|done|done].
      * cbn. split; [|done]. apply disj_sym. eapply disj_new; [apply (Io _ _ Hy0)|by apply disj_sym|done].
      * done.
    + intros i j y z Hy Hz.
      destruct (L _ _ Hy) as (y0 & Hy0 & Cy), (L _ _ Hz) as (z0 & Hz0 & Cz).
      pose proof (Ix _ _ _ _ Hy0 Hz0) as D.
      assert (E : sr_befores z = sr_befores z0) by (destruct Cz as [(_ & -> & _)|(_ & ->)]; done). rewrite E.
      destruct Cy as [(-> & -> & ->)|(Hn' & ->)]; [|done].
      cbn. eapply disj_new; [apply (Io _ _ Hz0)|done|done].
  - apply list_eq. intros i. rewrite abs_lookup. cbn [st_rs]. destruct (decide (r = i)) as [<-|Hn].
    + rewrite !list_lookup_alter, abs_lookup, Er. cbn. f_equal. unfold abs_router, set_gbefores. cbn.
      rewrite Hr. f_equal.
      * eapply Hread; [done|]. eapply Ix; done.
      * eapply Hread; [done|]. eapply disj_client; done.
    + rewrite !list_lookup_alter_ne, abs_lookup by done. destruct (st_rs st !! i) as [y|] eqn:Ey; [|done]. cbn. f_equal.
      destruct (Io _ _ Ey) as (? & ? & ? & ?). unfold abs_router. cbn. f_equal.
      * eapply Hread; [done|]. eapply Is; [done|done|congruence].
      * eapply Hread; [done|]. eapply Ix; done.
      * eapply Hread; [done|]. eapply disj_client; done.
Qed.

(** ** A new router *)
Lemma step_add st r x y : Inv st -> st_rs st !! r = Some x ->
  sr_gbefores y = s_nil -> sr_befores y = s_nil -> sr_sub y = s_nil -> own true (st_i st) (sr_handlers y) ->
  Inv (sadd st r x y) /\
  abs (sadd st r x y) = alter (set_sub (fun l => l ++ [length (abs st)])) r (abs st) ++ [abs_router st y].
Proof.
  intros [Io Is Ix] Er Yg Yb Ys Yh. unfold Slices.sadd. rewrite abs_length.
  destruct (sappend 0 spare (st_r st) (sr_sub x) [length (st_rs st)]) as [m g] eqn:Ea.
  destruct (Io _ _ Er) as (Og & Ob & Oh & Osub).
  destruct (append_spec _ _ _ _ _ _ _ _ Osub eq_refl Ea) as (Hr & Hb & Hown & Hread & Hnew).
  set (rs := alter (set_ssub g) r (st_rs st) ++ [y]).
  assert (Ln : length (alter (set_ssub g) r (st_rs st)) = length (st_rs st)) by apply alter_length.
  assert (L : forall i z, rs !! i = Some z ->
    (i = length (st_rs st) /\ z = y) \/
    exists z0, st_rs st !! i = Some z0 /\ (i = r /\ z = set_ssub g z0 /\ z0 = x \/ i <> r /\ z = z0)).
  { intros i z Hz. unfold rs in Hz. destruct (decide (i < length (st_rs st))) as [Hi|Hi].
    - right. rewrite lookup_app_l in Hz by lia. destruct (decide (i = r)) as [->|Hn].
      + rewrite list_lookup_alter, Er in Hz. injection Hz as <-. exists x. split; [done|]. by left.
      + rewrite list_lookup_alter_ne in Hz by done. exists z. split; [done|]. by right.
    - left. rewrite lookup_app_r in Hz by lia. rewrite Ln in Hz.
      destruct (i - length (st_rs st)) as [|k] eqn:Ek; [|done]. injection Hz as <-. split; [lia|done]. }
  split.
  - split; cbn [st_rs st_i st_r]; fold rs.
    + intros i z Hz. destruct (L _ _ Hz) as [(-> & ->)|(z0 & Hz0 & [(-> & -> & ->)|(Hn & ->)])].
      * rewrite Yg, Yb, Ys. split_and!; [apply own_nil|apply own_nil|done|apply own_nil].
      * cbn. done.
      * destruct (Io _ _ Hz0) as (? & ? & ? & ?). split_and!; try done. by apply Hown.
    + intros i j u v Hu Hv Hij.
      destruct (L _ _ Hu) as [(-> & ->)|(u0 & Hu0 & Cu)], (L _ _ Hv) as [(-> & ->)|(v0 & Hv0 & Cv)].
      * done.
      * rewrite Yg, Yb, Ys. split_and!; apply disj_sym, disj_nil.
      * rewrite Yg, Yb, Ys. split_and!; apply disj_nil.
      * destruct (Is _ _ _ _ Hu0 Hv0 Hij) as (D1 & D2 & D3).
        destruct Cu as [(-> & -> & ->)|(Hn & ->)], Cv as [(-> & -> & ->)|(Hn' & ->)]; [done|..].
        -- cbn. split_and!; [done|done|]. eapply disj_new; [apply (Io _ _ Hv0)|done|done].
        -- cbn. split_and!; [done|done|]. apply disj_sym. eapply disj_new; [apply (Io _ _ Hu0)|by apply disj_sym|done].
        -- done.
    + intros i j u v Hu Hv.
      destruct (L _ _ Hu) as [(-> & ->)|(u0 & Hu0 & Cu)]; [rewrite Yg; apply disj_sym, disj_nil|].
      destruct (L _ _ Hv) as [(-> & ->)|(v0 & Hv0 & Cv)]; [rewrite Yb; apply disj_nil|].
      pose proof (Ix _ _ _ _ Hu0 Hv0) as D.
      assert (E1 : sr_gbefores u = sr_gbefores u0) by (destruct Cu as [(_ & -> & _)|(_ & ->)]; done).
      assert (E2 : sr_befores v = sr_befores v0) by (destruct Cv as [(_ & -> & _)|(_ & ->)]; done).
      by rewrite E1, E2.
  - apply list_eq. intros i. rewrite abs_lookup. cbn [st_rs]. fold rs.
    assert (Yr : abs_router (mkSt rs (st_i st) (st_h st) m (st_hit st)) y = abs_router st y).
    { unfold abs_router. cbn. f_equal. rewrite Ys. rewrite !read_empty by done. done. }
    destruct (decide (i < length (st_rs st))) as [Hi|Hi].
    + rewrite lookup_app_l by (rewrite alter_length, abs_length; lia). unfold rs. rewrite lookup_app_l by lia.
      destruct (decide (r = i)) as [<-|Hn].
      * rewrite !list_lookup_alter, abs_lookup, Er. cbn. f_equal. unfold abs_router, set_sub. cbn. by rewrite Hr.
      * rewrite !list_lookup_alter_ne, abs_lookup by done. destruct (st_rs st !! i) as [z|] eqn:Ez; [|done]. cbn. f_equal.
        unfold abs_router. cbn. f_equal. eapply Hread; [apply (Io _ _ Ez)|]. eapply Is; [done|done|congruence].
    + rewrite lookup_app_r by (rewrite alter_length, abs_length; lia). unfold rs. rewrite lookup_app_r by lia.
      rewrite Ln, alter_length, abs_length. destruct (i - length (st_rs st)) as [|k]; [|done]. cbn. f_equal. exact Yr.
Qed.

(** ** What clients do with their own arrays *)
Lemma step_make st vs : Inv st ->
  let st' := mkSt (st_rs st) (st_i st ++ [mkArr true vs]) (st_h st) (st_r st) (st_hit st) in
  Inv st' /\ abs st' = abs st.
Proof.
  intros [Io Is Ix]. cbn zeta. split.
  - split; cbn [st_rs st_i st_r]; [|done|done]. intros i x Hx. destruct (Io _ _ Hx) as (? & ? & ? & ?).
    split_and!; try done; (eapply ext_own; [apply ext_app|done]).
  - apply list_eq. intros i. rewrite !abs_lookup. cbn [st_rs]. destruct (st_rs st !! i) as [x|] eqn:Ex; [|done]. cbn. f_equal.
    destruct (Io _ _ Ex) as (? & ? & ? & ?). unfold abs_router. cbn.
    f_equal; (eapply ext_read; [apply ext_app|done]).
Qed.

Lemma put_insert {T} i v (a : array T) : i < length (a_cells a) -> a_cells (put i [v] a) = <[i := v]> (a_cells a).
Proof.
  intros H. unfold put. cbn [a_cells length]. rewrite insert_take_drop by done. by rewrite Nat.add_1_r.
Qed.
Lemma read_put m s arr i (v : ival A) b : own b m s -> covers s arr i = false ->
  (forall a, m !! arr = Some a -> i < length (a_cells a)) ->
  sread (alter (put i [v]) arr m) s = sread m s.
Proof.
  intros Ho Hc Hi. destruct (decide (arr = s_arr s)) as [->|Hn]; [|by apply read_alter_ne].
  unfold sread. rewrite list_lookup_alter. destruct (m !! s_arr s) as [a|] eqn:Ea; [|done]. cbn [fmap option_fmap option_map].
  rewrite put_insert by (by apply Hi).
  unfold covers in Hc. rewrite Nat.eqb_refl in Hc. cbn [andb] in Hc.
  apply andb_false_iff in Hc as [Hc|Hc].
  - apply Nat.leb_gt in Hc. by rewrite drop_insert_gt by done.
  - apply Nat.ltb_ge in Hc. rewrite drop_insert_le by lia. rewrite take_insert by lia. done.
Qed.

Lemma step_put st arr i v : Inv st ->
  let st' := (sput st arr i v).1 in
  Inv st' /\ (sput st arr i v).2 = None /\ (st_hit st' = false -> st_hit st = false /\ abs st' = abs st) .
Proof.
  intros [Io Is Ix]. cbn zeta. unfold sput. destruct (st_i st !! arr) as [a|] eqn:Ea; [|done].
  destruct (a_client a && (i <? length (a_cells a))) eqn:Hc; [|done].
  apply andb_true_iff in Hc as [Hc Hi]. apply Nat.ltb_lt in Hi. cbn [fst snd].
  assert (Hl : forall a', st_i st !! arr = Some a' -> i < length (a_cells a')) by (intros a' E; congruence).
  assert (Hown : forall c s, own c (st_i st) s -> own c (alter (put i [v]) arr (st_i st)) s).
  { intros c s. apply own_alter; [done|]. intros a' Ha'. apply put_length. cbn. specialize (Hl _ Ha'). lia. }
  split; [|split; [done|]].
  - split; cbn [st_rs st_i st_r]; [|done|done]. intros j x Hx. destruct (Io _ _ Hx) as (? & ? & ? & ?).
    split_and!; try done; by apply Hown.
  - cbn [st_hit]. intros [Hh He]%orb_false_iff. split; [done|].
    apply list_eq. intros j. rewrite !abs_lookup. cbn [st_rs]. destruct (st_rs st !! j) as [x|] eqn:Ex; [|done]. cbn. f_equal.
    destruct (Io _ _ Ex) as (O1 & O2 & O3 & O4). unfold abs_router. cbn.
    assert (Hf : forall s, own false (st_i st) s -> sread (alter (put i [v]) arr (st_i st)) s = sread (st_i st) s).
    { intros s Hs. destruct (decide (s_cap s = 0)) as [Hz|Hz].
      - destruct Hs as [Hs _]. by rewrite !read_empty by lia.
      - apply read_alter_ne. intros ->. destruct Hs as [_ [?|(a' & H1 & H2 & _)]]; [lia|]. congruence. }
    f_equal; [by apply Hf|by apply Hf|].
    eapply read_put; [done| |done].
    destruct (covers (sr_handlers x) arr i) eqn:Hv; [|done].
    exfalso. assert (existsb (fun x => covers (sr_handlers x) arr i) (st_rs st) = true); [|congruence].
    apply existsb_exists. exists x. split; [|done]. apply elem_of_list_In. by eapply elem_of_list_lookup_2.
Qed.
End Facts.
