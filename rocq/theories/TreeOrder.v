(** The priority relation of TreeSpec.v is a strict order on routes: it cannot
    rank two routes both ways, so the winner is determined. *)
From Verif Require Import Base GoStr Strconv Pattern Tree GoStrFacts TreeSpec ListFacts.

Section Order.
Implicit Types c t : list pat.

Lemma app_cons_lookup c (p : pat) t : (c ++ p :: t) !! length c = Some p.
Proof. rewrite lookup_app_r by lia. by rewrite Nat.sub_diag. Qed.

Lemma common_lookup c (p q : pat) t u i :
  i < length c -> (c ++ p :: t) !! i = (c ++ q :: u) !! i.
Proof. intros Hi. by rewrite !lookup_app_l. Qed.

(** two routes part at one place only *)
Lemma part_le c c' p1 t1 p2 t2 q1 u1 q2 u2 :
  p1 <> p2 -> c ++ p1 :: t1 = c' ++ q1 :: u1 -> c ++ p2 :: t2 = c' ++ q2 :: u2 ->
  length c' <= length c.
Proof.
  intros Hne E1 E2. destruct (decide (length c < length c')) as [Hlt|]; [|lia]. exfalso.
  pose proof (common_lookup c' q1 q2 u1 u2 (length c) Hlt) as Hc.
  rewrite <- E1, <- E2, !app_cons_lookup in Hc. congruence.
Qed.

Lemma part_eq c c' p1 t1 p2 t2 q1 u1 q2 u2 :
  p1 <> p2 -> q1 <> q2 -> c ++ p1 :: t1 = c' ++ q1 :: u1 -> c ++ p2 :: t2 = c' ++ q2 :: u2 ->
  c = c' /\ p1 = q1 /\ t1 = u1 /\ p2 = q2 /\ t2 = u2.
Proof.
  intros Hp Hq E1 E2.
  pose proof (part_le _ _ _ _ _ _ _ _ _ _ Hp E1 E2).
  pose proof (part_le _ _ _ _ _ _ _ _ _ _ Hq (eq_sym E1) (eq_sym E2)).
  assert (length c = length c') as Hl by lia.
  apply app_inj_1 in E1 as [-> E1]; [|done]. apply app_inj_1 in E2 as [_ E2]; [|done].
  inversion E1; inversion E2; subst. done.
Qed.

Lemma proper_prefix_both c (p1 p2 : pat) r :
  proper_prefix (c ++ [p1]) r -> proper_prefix (c ++ [p2]) r -> p1 = p2.
Proof.
  intros (x & t & ->) (y & u & E). rewrite <- !app_assoc in E. simpl in E.
  apply app_inv_head in E. by inversion E.
Qed.

Lemma opened_before_asym tbl c p1 p2 :
  p1 <> p2 -> opened_before tbl (c ++ [p1]) (c ++ [p2]) ->
  ~ opened_before tbl (c ++ [p2]) (c ++ [p1]).
Proof.
  intros Hne (l1 & r & l2 & E & Hr & Hn) (l1' & r' & l2' & E' & Hr' & Hn').
  assert (tbl !! length l1 = Some r) as Hl.
  { rewrite E, lookup_app_r by lia. by rewrite Nat.sub_diag. }
  assert (tbl !! length l1' = Some r') as Hl'.
  { rewrite E', lookup_app_r by lia. by rewrite Nat.sub_diag. }
  destruct (lt_eq_lt_dec (length l1) (length l1')) as [[Hlt|Heq]|Hgt].
  - rewrite E', lookup_app_l in Hl by done. apply elem_of_list_lookup_2 in Hl.
    by apply (Hn' r).
  - rewrite Heq in Hl. assert (r = r') by congruence. subst r'.
    apply Hne. by eapply proper_prefix_both.
  - rewrite E, lookup_app_l in Hl' by done. apply elem_of_list_lookup_2 in Hl'.
    by apply (Hn r').
Qed.

Lemma listed_before_asym tbl a b :
  a <> b -> listed_before tbl a b -> ~ listed_before tbl b a.
Proof.
  intros Hne (l1 & l2 & E & Hn) (l1' & l2' & E' & Hn').
  assert (tbl !! length l1 = Some a) as Hl.
  { rewrite E, lookup_app_r by lia. by rewrite Nat.sub_diag. }
  assert (tbl !! length l1' = Some b) as Hl'.
  { rewrite E', lookup_app_r by lia. by rewrite Nat.sub_diag. }
  destruct (lt_eq_lt_dec (length l1) (length l1')) as [[Hlt|Heq]|Hgt].
  - rewrite E', lookup_app_l in Hl by done. by apply elem_of_list_lookup_2 in Hl.
  - rewrite Heq in Hl. congruence.
  - rewrite E, lookup_app_l in Hl' by done. by apply elem_of_list_lookup_2 in Hl'.
Qed.

(** [beats] read at the place where the routes part *)
Lemma beats_at tbl n c p1 t1 p2 t2 :
  p1 <> p2 -> beats tbl n (c ++ p1 :: t1) (c ++ p2 :: t2) ->
  (t1 <> [] /\ t2 <> [] /\
     (kind_lt p1 p2 \/ (p_typ p1 = p_typ p2 /\ opened_before tbl (c ++ [p1]) (c ++ [p2])))) \/
  (t1 = [] /\ t2 = [] /\ length c + 1 = n /\
     (kind_lt p1 p2 \/ (p_typ p1 = p_typ p2 /\ listed_before tbl (c ++ [p1]) (c ++ [p2])))) \/
  (t1 = [] /\ t2 = [] /\ length c + 1 < n /\ p_typ p1 = PMatchAll /\ p_typ p2 = PMatchAll /\
     listed_before tbl (c ++ [p2]) (c ++ [p1])) \/
  (t1 <> [] /\ t2 = [] /\ length c + 1 < n /\ p_typ p2 = PMatchAll).
Proof.
  intros Hne Hb. remember (c ++ p1 :: t1) as r1 eqn:E1. remember (c ++ p2 :: t2) as r2 eqn:E2.
  destruct Hb as [c' q1 u1 q2 u2 H1 H2 H3|c' q1 u1 q2 u2 H1 H2 H3 H4 H5|c' q1 q2 H1 H2
                 |c' q1 q2 H1 H2 H3 H4|c' q1 q2 H1 H2 H3 H4 H5|c' q1 u1 q2 H1 H2 H3].
  - assert (q1 <> q2) as Hq by (intros ->; unfold kind_lt in H3; lia).
    destruct (part_eq _ _ _ _ _ _ _ _ _ _ Hq Hne E1 E2) as (-> & -> & -> & -> & ->).
    left. split_and!; [done|done|by left].
  - destruct (part_eq _ _ _ _ _ _ _ _ _ _ H3 Hne E1 E2) as (-> & -> & -> & -> & ->).
    left. split_and!; [done|done|by right].
  - assert (q1 <> q2) as Hq by (intros ->; unfold kind_lt in H2; lia).
    destruct (part_eq _ _ _ _ _ _ _ _ _ _ Hq Hne E1 E2) as (-> & -> & <- & -> & <-).
    right. left. split_and!; [done|done|done|by left].
  - destruct (part_eq _ _ _ _ _ _ _ _ _ _ H2 Hne E1 E2) as (-> & -> & <- & -> & <-).
    right. left. split_and!; [done|done|done|by right].
  - destruct (part_eq _ _ _ _ _ _ _ _ _ _ H2 Hne E1 E2) as (-> & -> & <- & -> & <-).
    right. right. left. done.
  - destruct (decide (q1 = q2)) as [->|Hq].
    + exfalso. pose proof (part_le _ _ _ _ _ _ _ _ _ _ Hne (eq_sym E1) (eq_sym E2)) as Hle.
      assert (length c = length c') as Hl.
      { apply (f_equal length) in E2. rewrite !app_length in E2. simpl in E2. lia. }
      apply app_inj_1 in E1 as [_ E1]; [|done]. apply app_inj_1 in E2 as [_ E2]; [|done].
      congruence.
    + destruct (part_eq _ _ _ _ _ _ _ _ _ _ Hq Hne E1 E2) as (-> & -> & -> & -> & <-).
      right. right. right. done.
Qed.

Lemma beats_asym tbl n r1 r2 : beats tbl n r1 r2 -> ~ beats tbl n r2 r1.
Proof.
  intros Hb Hb'.
  assert (Hgen : forall c p1 t1 p2 t2, p1 <> p2 -> r1 = c ++ p1 :: t1 -> r2 = c ++ p2 :: t2 -> False).
  { intros c p1 t1 p2 t2 Hne -> ->. apply beats_at in Hb; [|done]. apply beats_at in Hb'; [|done].
    unfold kind_lt in *.
    destruct Hb as [(T1 & T2 & Hk)|[(T1 & T2 & Hn & Hk)|[(T1 & T2 & Hn & K1 & K2 & Hl)|(T1 & T2 & Hn & K2)]]];
    destruct Hb' as [(T1' & T2' & Hk')|[(T1' & T2' & Hn' & Hk')|[(T1' & T2' & Hn' & K1' & K2' & Hl')|(T1' & T2' & Hn' & K2')]]];
    try congruence; try lia.
    - destruct Hk as [Hk|[Hk Ho]]; destruct Hk' as [Hk'|[Hk' Ho']]; try lia.
      + rewrite Hk' in Hk. lia.
      + rewrite Hk in Hk'. lia.
      + by eapply opened_before_asym.
    - destruct Hk as [Hk|[Hk Ho]]; destruct Hk' as [Hk'|[Hk' Ho']]; try lia.
      + rewrite Hk' in Hk. lia.
      + rewrite Hk in Hk'. lia.
      + eapply listed_before_asym; [|exact Ho|exact Ho']. intros E. apply app_inv_head in E. congruence.
    - eapply listed_before_asym; [|exact Hl|exact Hl']. intros E. apply app_inv_head in E. congruence. }
  assert (Hlong : forall c p1 t1 p2, t1 <> [] -> r1 = c ++ p1 :: t1 -> r2 = c ++ [p2] -> False).
  { intros c p1 t1 p2 Ht -> ->. remember (c ++ p1 :: t1) as a eqn:E1. remember (c ++ [p2]) as b eqn:E2.
    assert (length b < length a) as Hl.
    { subst. rewrite !app_length. simpl. destruct t1; [done|]. simpl. lia. }
    destruct Hb' as [c' q1 u1 q2 u2 H1 H2 H3|c' q1 u1 q2 u2 H1 H2 H3 H4 H5|c' q1 q2 H1 H2
                 |c' q1 q2 H1 H2 H3 H4|c' q1 q2 H1 H2 H3 H4 H5|c' q1 u1 q2 H1 H2 H3];
      try (rewrite !app_length in Hl; simpl in Hl; try destruct u1; simpl in Hl; first [lia|done]).
    - by eapply (Hgen c' q2 u2 q1 u1); [intros ->; unfold kind_lt in *; lia|..].
    - by eapply (Hgen c' q2 u2 q1 u1). }
  destruct Hb as [c' q1 u1 q2 u2 H1 H2 H3|c' q1 u1 q2 u2 H1 H2 H3 H4 H5|c' q1 q2 H1 H2
                 |c' q1 q2 H1 H2 H3 H4|c' q1 q2 H1 H2 H3 H4 H5|c' q1 u1 q2 H1 H2 H3].
  - by eapply (Hgen c' q1 u1 q2 u2); [intros ->; unfold kind_lt in *; lia|..].
  - by eapply (Hgen c' q1 u1 q2 u2).
  - by eapply (Hgen c' q1 [] q2 []); [intros ->; unfold kind_lt in *; lia|..].
  - by eapply (Hgen c' q1 [] q2 []).
  - by eapply (Hgen c' q1 [] q2 []).
  - by eapply (Hlong c' q1 u1 q2).
Qed.

End Order.
