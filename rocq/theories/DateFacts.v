(** The dates of net/http follow the calendar. *)
From Verif Require Import Base GoStr NetDate DateSpec.
Local Open Scope Z_scope.

(** ** All numbers below a power of two, by halves *)
Fixpoint all_from (P : Z -> bool) (k : nat) (lo : Z) : bool :=
  match k with O => P lo | S k => all_from P k lo && all_from P k (lo + 2 ^ Z.of_nat k) end.
Lemma all_from_spec P k lo z : all_from P k lo = true -> lo <= z < lo + 2 ^ Z.of_nat k -> P z = true.
Proof.
  revert lo. induction k as [|k IH]; intros lo H Hz; cbn [all_from] in H.
  - change (2 ^ Z.of_nat 0) with 1 in Hz. assert (z = lo) as -> by lia. exact H.
  - apply andb_true_iff in H as [H1 H2]. rewrite Nat2Z.inj_succ, Z.pow_succ_r in Hz by lia.
    destruct (Z.lt_ge_cases z (lo + 2 ^ Z.of_nat k)); [apply (IH lo)|apply (IH (lo + 2 ^ Z.of_nat k))]; auto with lia.
Qed.

Lemma isLeap_spec y : isLeap y = true <-> leap y.
Proof.
  unfold isLeap, leap. rewrite andb_true_iff, orb_true_iff, negb_true_iff, !Z.eqb_eq, Z.eqb_neq.
  rewrite !Z.mod_divide by lia. tauto.
Qed.
Lemma isLeap_false y : isLeap y = false <-> ~ leap y.
Proof. rewrite <- isLeap_spec. destruct (isLeap y); split; congruence. Qed.
Lemma isLeap_400 y n : isLeap (y + 400 * n) = isLeap y.
Proof.
  unfold isLeap. replace ((y + 400 * n) mod 4) with (y mod 4) by (replace (y + 400 * n) with (y + (100 * n) * 4) by lia; by rewrite Z.mod_add).
  replace ((y + 400 * n) mod 100) with (y mod 100) by (replace (y + 400 * n) with (y + (4 * n) * 100) by lia; by rewrite Z.mod_add).
  replace ((y + 400 * n) mod 400) with (y mod 400) by (replace (y + 400 * n) with (y + n * 400) by lia; by rewrite Z.mod_add). done.
Qed.
Lemma daysIn_400 m y n : daysIn m (y + 400 * n) = daysIn m y.
Proof. unfold daysIn. by rewrite isLeap_400. Qed.

Ltac closed_before := repeat match goal with
  | |- context[before ?k] => let v := eval vm_compute in (before k) in change (before k) with v
  | |- context[3 <=? ?k] => let v := eval vm_compute in (3 <=? k) in change (3 <=? k) with v
  end.

(** ** Months *)
Lemma month_has_spec y m n : month_has y m n <-> 1 <= m <= 12 /\ n = daysIn m y.
Proof.
  split.
  - intros [m' H|m' H|H|H]; split; try lia.
    + repeat (apply elem_of_cons in H as [->|H]; [lia|]). by apply elem_of_nil in H.
    + repeat (apply elem_of_cons in H as [->|H]; [done|]). by apply elem_of_nil in H.
    + repeat (apply elem_of_cons in H as [->|H]; [lia|]). by apply elem_of_nil in H.
    + repeat (apply elem_of_cons in H as [->|H]; [done|]). by apply elem_of_nil in H.
    + apply isLeap_false in H. unfold daysIn. by rewrite H.
    + apply isLeap_spec in H. unfold daysIn. by rewrite H.
  - intros [Hm ->].
    assert (m = 1 \/ m = 2 \/ m = 3 \/ m = 4 \/ m = 5 \/ m = 6 \/ m = 7 \/ m = 8 \/ m = 9 \/ m = 10 \/ m = 11 \/ m = 12) as H by lia.
    destruct H as [->|[->|H]].
    + apply mh_31. by apply (bool_decide_eq_true _).
    + unfold daysIn. cbn. destruct (isLeap y) eqn:E; [apply mh_29, isLeap_spec, E|apply mh_28, isLeap_false, E].
    + repeat destruct H as [->|H]; try subst m;
        (apply mh_31 || apply mh_30); by apply (bool_decide_eq_true _).
Qed.

(** ** The next day, computed *)
Definition next_date (D : Z * Z * Z) : Z * Z * Z :=
  let '(y, m, d) := D in
  if d <? daysIn m y then (y, m, d + 1) else if m <? 12 then (y, m + 1, 1) else (y + 1, 1, 1).
Definition valid (D : Z * Z * Z) : bool :=
  let '(y, m, d) := D in (1 <=? m) && (m <=? 12) && (1 <=? d) && (d <=? daysIn m y).
Lemma tomorrow_spec D D' : valid D = true -> next_date D = D' -> tomorrow D D'.
Proof.
  destruct D as [[y m] d]. unfold valid, next_date. rewrite !andb_true_iff, !Z.leb_le. intros (((H1 & H2) & H3) & H4).
  destruct (Z.ltb_spec d (daysIn m y)); [|destruct (Z.ltb_spec m 12)]; intros <-.
  - apply (to_day _ _ _ (daysIn m y)); [by apply month_has_spec|lia].
  - assert (d = daysIn m y) as -> by lia. apply to_month; [by apply month_has_spec|lia].
  - assert (m = 12) as -> by lia. assert (d = 31) as -> by (change (daysIn 12 y) with 31 in *; lia). apply to_year.
Qed.
Lemma tomorrow_inv D D' : tomorrow D D' -> valid D = true /\ next_date D = D'.
Proof.
  assert (forall m y, 1 <= m <= 12 -> 28 <= daysIn m y) as Hd.
  { intros m y Hm. assert (month_has y m (daysIn m y)) as H by (by apply month_has_spec). destruct H; lia. }
  intros [y m d n H Hdn|y m n H Hm|y]; unfold valid, next_date.
  - apply month_has_spec in H as [Hm ->]. rewrite !andb_true_iff, !Z.leb_le. split; [lia|].
    by rewrite (proj2 (Z.ltb_lt d _)) by lia.
  - apply month_has_spec in H as [Hm' ->]. rewrite !andb_true_iff, !Z.leb_le. specialize (Hd m y Hm'). split; [lia|].
    rewrite Z.ltb_irrefl. by rewrite (proj2 (Z.ltb_lt m 12)) by lia.
  - change (daysIn 12 y) with 31. done.
Qed.

(** ** 400 years are a cycle *)
Lemma absDays_shift y m d n : absDays (y + 400 * n) m d = absDays y m d + 146097 * n.
Proof.
  unfold absDays. rewrite isLeap_400.
  replace ((y + 400 * n - 1) / 400) with ((y - 1) / 400 + n)
    by (replace (y + 400 * n - 1) with (y - 1 + n * 400) by lia; by rewrite Z.div_add).
  replace (y + 400 * n - 1 - 400 * ((y - 1) / 400 + n)) with (y - 1 - 400 * ((y - 1) / 400)) by lia.
  set (r := y - 1 - 400 * ((y - 1) / 400)). cbv zeta. destruct (isLeap y && (3 <=? m)); lia.
Qed.


(** ** Years: the parts of a count of days *)
Lemma isLeap_parts n c q k : 0 <= c <= 3 -> 0 <= q <= 24 -> 0 <= k <= 3 ->
  isLeap (400 * n + 100 * c + 4 * q + k + 1) = (k =? 3) && (negb (q =? 24) || (c =? 3)).
Proof.
  intros Hc Hq Hk. replace (400 * n + 100 * c + 4 * q + k + 1) with (100 * c + 4 * q + k + 1 + 400 * n) by lia.
  rewrite isLeap_400. unfold isLeap.
  assert ((100 * c + 4 * q + k + 1) mod 4 = if k =? 3 then 0 else k + 1) as ->.
  { destruct (Z.eqb_spec k 3).
    - symmetry. apply (Z.mod_unique_pos _ _ (25 * c + q + 1)); lia.
    - symmetry. apply (Z.mod_unique_pos _ _ (25 * c + q)); lia. }
  assert ((100 * c + 4 * q + k + 1) mod 100 = if (k =? 3) && (q =? 24) then 0 else 4 * q + k + 1) as ->.
  { destruct (Z.eqb_spec k 3), (Z.eqb_spec q 24); cbn [andb].
    1: symmetry; apply (Z.mod_unique_pos _ _ (c + 1)); lia.
    all: symmetry; apply (Z.mod_unique_pos _ _ c); lia. }
  assert ((100 * c + 4 * q + k + 1) mod 400 = if (k =? 3) && (q =? 24) && (c =? 3) then 0 else 100 * c + 4 * q + k + 1) as ->.
  { destruct (Z.eqb_spec k 3), (Z.eqb_spec q 24), (Z.eqb_spec c 3); cbn [andb].
    1: symmetry; apply (Z.mod_unique_pos _ _ 1); lia.
    all: symmetry; apply (Z.mod_unique_pos _ _ 0); lia. }
  destruct (Z.eqb_spec k 3), (Z.eqb_spec q 24), (Z.eqb_spec c 3); cbn [andb orb negb];
    repeat match goal with |- context[?a =? ?b] => destruct (Z.eqb_spec a b); try lia end; reflexivity.
Qed.
Lemma absDays_parts n c q k m d : 0 <= c <= 3 -> 0 <= q <= 24 -> 0 <= k <= 3 ->
  absDays (400 * n + 100 * c + 4 * q + k + 1) m d =
  146097 * n + 36524 * c + 1461 * q + 365 * k + before (m - 1) +
  (if isLeap (400 * n + 100 * c + 4 * q + k + 1) && (3 <=? m) then 1 else 0) + (d - 1).
Proof.
  intros Hc Hq Hk. unfold absDays. set (b := isLeap _ && _).
  replace (400 * n + 100 * c + 4 * q + k + 1 - 1) with (400 * n + 100 * c + 4 * q + k) by lia.
  replace ((400 * n + 100 * c + 4 * q + k) / 400) with n by (apply (Z.div_unique_pos _ _ _ (100 * c + 4 * q + k)); lia).
  replace (400 * n + 100 * c + 4 * q + k - 400 * n) with (100 * c + 4 * q + k) by lia.
  replace ((100 * c + 4 * q + k) / 100) with c by (apply (Z.div_unique_pos _ _ _ (4 * q + k)); lia).
  replace (100 * c + 4 * q + k - 100 * c) with (4 * q + k) by lia.
  replace ((4 * q + k) / 4) with q by (apply (Z.div_unique_pos _ _ _ k); lia).
  cbv zeta. destruct b; lia.
Qed.
(** the month and the day from the day in the year *)
Definition in_year (b : bool) (d : Z) : Z * Z :=
  if b && (d =? 59) then (2, 29)
  else
    let day := if b && (59 <? d) then d - 1 else d in
    let m := day / 31 in
    let e := before (m + 1) in
    if e <=? day then (m + 2, day - e + 1) else (m + 1, day - before m + 1).
Definition year_day_ok (b : bool) (x : Z) : bool :=
  if (if b then 365 else 364) <? x then true else
  let '(m, d) := in_year b x in
  (1 <=? m) && (m <=? 12) && (1 <=? d) && (d <=? (if (m =? 2) && b then 29 else before m - before (m - 1))) &&
  (before (m - 1) + (if b && (3 <=? m) then 1 else 0) + (d - 1) =? x).
Lemma year_day_all b x : 0 <= x < 512 -> year_day_ok b x = true.
Proof.
  intros H. assert (all_from (year_day_ok b) 9 0 = true) as Ha by (destruct b; vm_compute; reflexivity).
  apply (all_from_spec _ 9 0 _ Ha). change (2 ^ Z.of_nat 9) with 512. lia.
Qed.
Lemma absDate_spec z y m d : absDate z = (y, m, d) -> valid (y, m, d) = true /\ absDays y m d = z.
Proof.
  unfold absDate. cbv zeta. set (n := z / 146097). set (r := z - 146097 * n).
  assert (0 <= r < 146097) as Hr by (unfold r, n; pose proof (Z.div_mod z 146097 ltac:(lia)); pose proof (Z.mod_pos_bound z 146097 ltac:(lia)); lia).
  assert (z = 146097 * n + r) as Hz by (unfold r; lia). clearbody n r. subst z.
  set (c := r / 36524 - r / 36524 / 4). set (r1 := r - 36524 * c).
  assert (0 <= c <= 3 /\ 0 <= r1 <= 36524 /\ (c < 3 -> r1 < 36524)) as (Hc & Hr1 & Hc3).
  { pose proof (Z.div_mod r 36524 ltac:(lia)) as E. pose proof (Z.mod_pos_bound r 36524 ltac:(lia)) as B.
    unfold r1, c. set (a := r / 36524) in *. assert (0 <= a <= 4) as Ha by lia.
    assert (a / 4 = if a =? 4 then 1 else 0) as ->.
    { destruct (Z.eqb_spec a 4) as [->|]; [done|]. apply Z.div_small. lia. }
    destruct (Z.eqb_spec a 4); lia. }
  assert (r = 36524 * c + r1) as Er by (unfold r1; lia). clearbody c r1. subst r.
  set (q := r1 / 1461). set (r2 := r1 - 1461 * q).
  assert (0 <= q <= 24 /\ 0 <= r2 < 1461 /\ (q = 24 -> c < 3 -> r2 < 1460)) as (Hq & Hr2 & Hq24).
  { pose proof (Z.div_mod r1 1461 ltac:(lia)) as E. pose proof (Z.mod_pos_bound r1 1461 ltac:(lia)) as B. unfold r2, q. lia. }
  assert (r1 = 1461 * q + r2) as Er by (unfold r2; lia). clearbody q r2. subst r1.
  set (k := r2 / 365 - r2 / 365 / 4). set (x := r2 - 365 * k).
  assert (0 <= k <= 3 /\ 0 <= x <= 365 /\ (x = 365 -> k = 3 /\ r2 = 1460)) as (Hk & Hx & Hx3).
  { pose proof (Z.div_mod r2 365 ltac:(lia)) as E. pose proof (Z.mod_pos_bound r2 365 ltac:(lia)) as B.
    unfold x, k. set (a := r2 / 365) in *. assert (0 <= a <= 4) as Ha by lia.
    assert (a / 4 = if a =? 4 then 1 else 0) as ->.
    { destruct (Z.eqb_spec a 4) as [->|]; [done|]. apply Z.div_small. lia. }
    destruct (Z.eqb_spec a 4); lia. }
  assert (r2 = 365 * k + x) as Er by (unfold x; lia). clearbody k x. subst r2.
  pose proof (isLeap_parts n c q k Hc Hq Hk) as Hl.
  pose proof (fun m d => absDays_parts n c q k m d Hc Hq Hk) as Hd.
  set (Y := 400 * n + 100 * c + 4 * q + k + 1) in *.
  intros E. assert (y = Y /\ in_year (isLeap Y) x = (m, d)) as [-> Ei].
  { unfold in_year. cbv zeta. destruct (isLeap Y && (x =? 59)); [by injection E as <- <- <-|].
    set (day := if isLeap Y && (59 <? x) then x - 1 else x) in *.
    destruct (before (day / 31 + 1) <=? day); by injection E as <- <- <-. }
  clear E. pose proof (year_day_all (isLeap Y) x ltac:(lia)) as H. unfold year_day_ok in H. rewrite Ei in H.
  assert (((if isLeap Y then 365 else 364) <? x) = false) as Hb.
  { apply Z.ltb_ge. destruct (isLeap Y); [lia|]. destruct (Z.eq_dec x 365) as [->|]; [|lia].
    destruct (Hx3 eq_refl) as [-> ?]. symmetry in Hl. rewrite Z.eqb_refl in Hl. cbn [andb] in Hl.
    apply orb_false_iff in Hl as [Hl1 Hl2]. apply negb_false_iff, Z.eqb_eq in Hl1. apply Z.eqb_neq in Hl2. lia. }
  rewrite Hb in H. apply andb_true_iff in H as [H H5]. apply Z.eqb_eq in H5. split.
  - exact H.
  - rewrite Hd. lia.
Qed.
(** ** From one year to the next *)
Definition year_ok (y : Z) : bool := absDays (y + 1) 1 1 =? absDays y 12 31 + 1.
Lemma absDays_year y : absDays (y + 1) 1 1 = absDays y 12 31 + 1.
Proof.
  assert (year_ok (y mod 400) = true) as H.
  { assert (all_from year_ok 9 0 = true) as Ha by (vm_compute; reflexivity).
    apply (all_from_spec _ 9 0 _ Ha). pose proof (Z.mod_pos_bound y 400 ltac:(lia)). change (2 ^ Z.of_nat 9) with 512. lia. }
  apply Z.eqb_eq in H. pose proof (Z.div_mod y 400 ltac:(lia)) as E.
  assert (y = y mod 400 + 400 * (y / 400)) as E' by lia. rewrite E' at 1 2.
  replace (y mod 400 + 400 * (y / 400) + 1) with (y mod 400 + 1 + 400 * (y / 400)) by lia.
  rewrite !absDays_shift. lia.
Qed.
Lemma absDays_in y m d :
  absDays y m d = absDays y 1 1 + (before (m - 1) + (if isLeap y && (3 <=? m) then 1 else 0) + (d - 1)).
Proof.
  unfold absDays. change (3 <=? 1) with false. rewrite andb_false_r. change (before (1 - 1)) with 0. cbv zeta.
  destruct (isLeap y && (3 <=? m)); lia.
Qed.
Lemma absDays_next D : valid D = true -> forall y m d y' m' d', D = (y, m, d) -> next_date D = (y', m', d') ->
  absDays y' m' d' = absDays y m d + 1.
Proof.
  intros Hv y m d y' m' d' -> Hn. unfold valid in Hv. rewrite !andb_true_iff, !Z.leb_le in Hv. destruct Hv as (((H1 & H2) & H3) & H4).
  unfold next_date in Hn. destruct (Z.ltb_spec d (daysIn m y)); [|destruct (Z.ltb_spec m 12)]; injection Hn as <- <- <-.
  - unfold absDays. lia.
  - assert (d = daysIn m y) as -> by lia.
    assert (m = 1 \/ m = 2 \/ m = 3 \/ m = 4 \/ m = 5 \/ m = 6 \/ m = 7 \/ m = 8 \/ m = 9 \/ m = 10 \/ m = 11) as H' by lia.
    clear -H'. rewrite (absDays_in y (m + 1) 1), (absDays_in y m (daysIn m y)). unfold daysIn. generalize (absDays y 1 1). intros B.
    repeat destruct H' as [->|H']; try subst m; destruct (isLeap y); closed_before; cbn; lia.
  - assert (m = 12) as -> by lia. assert (d = 31) as -> by (change (daysIn 12 y) with 31 in *; lia). apply absDays_year.
Qed.

(** ** Dates with the same number are the same *)
Lemma daysIn_lb m y : 1 <= m <= 12 -> 28 <= daysIn m y.
Proof. intros Hm. assert (month_has y m (daysIn m y)) as H by (by apply month_has_spec). destruct H; lia. Qed.
Lemma next_valid D : valid D = true -> valid (next_date D) = true.
Proof.
  destruct D as [[y m] d]. unfold valid, next_date. rewrite !andb_true_iff, !Z.leb_le. intros (((H1 & H2) & H3) & H4).
  destruct (Z.ltb_spec d (daysIn m y)); [|destruct (Z.ltb_spec m 12)]; rewrite !andb_true_iff, !Z.leb_le.
  - lia.
  - pose proof (daysIn_lb (m + 1) y). lia.
  - pose proof (daysIn_lb 1 (y + 1)). lia.
Qed.
Lemma in_year_bounds y m d : valid (y, m, d) = true -> absDays y 1 1 <= absDays y m d < absDays (y + 1) 1 1.
Proof.
  rewrite absDays_year. unfold valid. rewrite !andb_true_iff, !Z.leb_le. intros (((H1 & H2) & H3) & H4). revert H4.
  assert (m = 1 \/ m = 2 \/ m = 3 \/ m = 4 \/ m = 5 \/ m = 6 \/ m = 7 \/ m = 8 \/ m = 9 \/ m = 10 \/ m = 11 \/ m = 12) as H' by lia.
  rewrite (absDays_in y m d), (absDays_in y 12 31). unfold daysIn. generalize (absDays y 1 1). intros B.
  repeat destruct H' as [->|H']; try subst m; destruct (isLeap y); closed_before; cbn; lia.
Qed.
Lemma year_starts y n : 0 <= n -> absDays y 1 1 <= absDays (y + n) 1 1.
Proof.
  revert n. apply natlike_ind.
  - rewrite Z.add_0_r. lia.
  - intros n Hn IH. replace (y + Z.succ n) with (y + n + 1) by lia.
    pose proof (in_year_bounds (y + n) 1 1 eq_refl). lia.
Qed.
Lemma absDays_inj y m d y' m' d' : valid (y, m, d) = true -> valid (y', m', d') = true ->
  absDays y m d = absDays y' m' d' -> (y, m, d) = (y', m', d').
Proof.
  intros Hv Hv' E. pose proof (in_year_bounds _ _ _ Hv) as B. pose proof (in_year_bounds _ _ _ Hv') as B'.
  assert (y = y') as <-.
  { destruct (Z.lt_trichotomy y y') as [H|[H|H]]; [|done|].
    - pose proof (year_starts (y + 1) (y' - (y + 1)) ltac:(lia)) as S. replace (y + 1 + (y' - (y + 1))) with y' in S by lia. lia.
    - pose proof (year_starts (y' + 1) (y - (y' + 1)) ltac:(lia)) as S. replace (y' + 1 + (y - (y' + 1))) with y in S by lia. lia. }
  clear B B'. unfold valid in Hv, Hv'. rewrite !andb_true_iff, !Z.leb_le in Hv, Hv'.
  destruct Hv as (((H1 & H2) & H3) & H4). destruct Hv' as (((G1 & G2) & G3) & G4).
  rewrite (absDays_in y m d), (absDays_in y m' d') in E. unfold daysIn in *. revert H4 G4 E. generalize (absDays y 1 1). intros B.
  assert (m = 1 \/ m = 2 \/ m = 3 \/ m = 4 \/ m = 5 \/ m = 6 \/ m = 7 \/ m = 8 \/ m = 9 \/ m = 10 \/ m = 11 \/ m = 12) as H' by lia.
  assert (m' = 1 \/ m' = 2 \/ m' = 3 \/ m' = 4 \/ m' = 5 \/ m' = 6 \/ m' = 7 \/ m' = 8 \/ m' = 9 \/ m' = 10 \/ m' = 11 \/ m' = 12) as G' by lia.
  clear H1 H2 G1 G2.
  repeat destruct H' as [->|H']; try subst m; repeat destruct G' as [->|G']; try subst m'; destruct (isLeap y); closed_before; cbn; intros;
    solve [lia|do 2 f_equal; lia|f_equal; lia].
Qed.
Lemma absDate_valid z : valid (absDate z) = true.
Proof. destruct (absDate z) as [[y m] d] eqn:E. by apply absDate_spec in E as [H _]. Qed.
Lemma absDate_next z : absDate (z + 1) = next_date (absDate z).
Proof.
  destruct (absDate z) as [[y m] d] eqn:E. destruct (absDate (z + 1)) as [[y' m'] d'] eqn:E'.
  apply absDate_spec in E as [Hv Ez]. apply absDate_spec in E' as [Hv' Ez']. pose proof (next_valid _ Hv) as Hn.
  destruct (next_date (y, m, d)) as [[a b] c] eqn:En. apply absDays_inj; [done|done|].
  rewrite (absDays_next _ Hv _ _ _ _ _ _ eq_refl En). lia.
Qed.

(** ** Days of the calendar have the number that Go computes *)
Lemma falls_absDate k : falls k (absDate (k + epoch)).
Proof.
  assert (forall z, tomorrow (absDate z) (absDate (z + 1))) as Ht.
  { intros z. apply tomorrow_spec; [apply absDate_valid|by rewrite absDate_next]. }
  destruct (Z.le_ge_cases 0 k) as [H|H].
  - revert k H. apply natlike_ind.
    + change (absDate (0 + epoch)) with (1970, 1, 1). apply fa_epoch.
    + intros k Hk IH. replace (Z.succ k + epoch) with (k + epoch + 1) by lia. apply (fa_next k (absDate (k + epoch))); auto.
  - assert (forall n, 0 <= n -> falls (- n) (absDate (- n + epoch))) as Hn.
    { apply natlike_ind.
      - change (absDate (- 0 + epoch)) with (1970, 1, 1). apply fa_epoch.
      - intros n Hn IH. apply (fa_prev (- Z.succ n) _ (absDate (- n + epoch))).
        + replace (- Z.succ n + 1) with (- n) by lia. exact IH.
        + replace (- n + epoch) with (- Z.succ n + epoch + 1) by lia. apply Ht. }
    specialize (Hn (- k) ltac:(lia)). by rewrite Z.opp_involutive in Hn.
Qed.
Lemma falls_absDays k D : falls k D -> forall y m d, D = (y, m, d) -> absDays y m d = k + epoch.
Proof.
  induction 1 as [|k D D' H IH Ht|k D D' H IH Ht]; intros y m d E.
  - injection E as <- <- <-. reflexivity.
  - destruct D as [[y0 m0] d0]. specialize (IH _ _ _ eq_refl). apply tomorrow_inv in Ht as [Hv Hn]. rewrite E in Hn.
    rewrite (absDays_next _ Hv _ _ _ _ _ _ eq_refl Hn), IH. lia.
  - destruct D' as [[y0 m0] d0]. specialize (IH _ _ _ eq_refl). apply tomorrow_inv in Ht as [Hv Hn]. rewrite E in Hv, Hn.
    pose proof (absDays_next _ Hv _ _ _ _ _ _ eq_refl Hn). lia.
Qed.
Lemma falls_valid k D : falls k D -> valid D = true.
Proof.
  induction 1 as [|k D D' H IH Ht|k D D' H IH Ht].
  - reflexivity.
  - apply tomorrow_inv in Ht as [Hv Hn]. subst D'. by apply next_valid.
  - by apply tomorrow_inv in Ht as [Hv _].
Qed.
(** each day has one date, in both directions *)
Lemma falls_day k k' D : falls k D -> falls k' D -> k = k'.
Proof.
  intros H H'. destruct D as [[y m] d]. pose proof (falls_absDays _ _ H _ _ _ eq_refl). pose proof (falls_absDays _ _ H' _ _ _ eq_refl). lia.
Qed.

(** ** Digits *)
Lemma digit_val_spec c : (48 <= nat_of_ascii c <= 57)%nat -> digit_val c = Some (Z.of_nat (nat_of_ascii c) - 48).
Proof. intros H. unfold digit_val. by rewrite (proj2 (Z.leb_le 48 _)), (proj2 (Z.leb_le _ 57)) by lia. Qed.
Lemma digit_code n : nat_of_ascii (digit n) = Z.to_nat (48 + n mod 10).
Proof.
  unfold digit. pose proof (Z.mod_pos_bound n 10 ltac:(lia)). rewrite nat_ascii_embedding; [done|].
  rewrite <- (Nat2Z.id 256). apply Z2Nat.inj_lt; lia.
Qed.
Lemma decimal_S n x y s : decimal n x s -> 0 <= y <= 9 -> decimal (S n) (10 * x + y) (s ++ [digit y]).
Proof.
  intros H Hy. replace y with (Z.of_nat (nat_of_ascii (digit y)) - 48) at 1.
  - apply de_S; [done|]. rewrite digit_code, Z.mod_small by lia. lia.
  - rewrite digit_code, Z.mod_small by lia. lia.
Qed.
Lemma digit_mod n : digit n = digit (n mod 10).
Proof. unfold digit. by rewrite Z.mod_mod. Qed.
Lemma append2_decimal n : 0 <= n < 100 -> decimal 2 n (append2 n).
Proof.
  intros H. unfold append2. rewrite (digit_mod n).
  pose proof (Z.div_mod n 10 ltac:(lia)) as E. pose proof (Z.mod_pos_bound n 10 ltac:(lia)) as B.
  rewrite E at 1. apply (decimal_S 1 (n / 10) (n mod 10) [digit (n / 10)]); [|lia].
  replace (n / 10) with (10 * 0 + n / 10) at 1 by lia. apply (decimal_S 0 0 (n / 10) []); [apply de_0|lia].
Qed.
Lemma append4_decimal n : 0 <= n < 10000 -> decimal 4 n (append4 n).
Proof.
  intros H. unfold append4. rewrite (digit_mod n), (digit_mod (n / 10)), (digit_mod (n / 100)).
  replace (n / 1000) with (n / 10 / 10 / 10) by (rewrite !Z.div_div by lia; done).
  replace (n / 100) with (n / 10 / 10) by (rewrite !Z.div_div by lia; done).
  pose proof (Z.div_mod n 10 ltac:(lia)) as E. pose proof (Z.mod_pos_bound n 10 ltac:(lia)) as B.
  pose proof (Z.div_mod (n / 10) 10 ltac:(lia)) as E1. pose proof (Z.mod_pos_bound (n / 10) 10 ltac:(lia)) as B1.
  pose proof (Z.div_mod (n / 10 / 10) 10 ltac:(lia)) as E2. pose proof (Z.mod_pos_bound (n / 10 / 10) 10 ltac:(lia)) as B2.
  rewrite E at 1. apply (decimal_S 3 _ _ [_; _; _]); [|lia].
  rewrite E1 at 1. apply (decimal_S 2 _ _ [_; _]); [|lia].
  rewrite E2 at 1. apply (decimal_S 1 _ _ [_]); [|lia].
  replace (n / 10 / 10 / 10) with (10 * 0 + n / 10 / 10 / 10) at 1 by lia. apply (decimal_S 0 0 _ []); [apply de_0|lia].
Qed.
Lemma decimal_0_inv x s : decimal 0 x s -> x = 0 /\ s = [].
Proof. intros H. remember 0%nat as n eqn:E. destruct H; [done|discriminate]. Qed.
Lemma decimal_S_inv n x s : decimal (S n) x s ->
  exists x' s' c, decimal n x' s' /\ (48 <= nat_of_ascii c <= 57)%nat /\ x = 10 * x' + (Z.of_nat (nat_of_ascii c) - 48) /\ s = s' ++ [c].
Proof. intros H. remember (S n) as n' eqn:E. destruct H as [|n0 x s c H Hc]; [discriminate|]. injection E as ->. eauto 10. Qed.
Lemma decimal2_reads x s rest b : decimal 2 x s -> getnum (s ++ rest) b = Some (x, rest).
Proof.
  intros H. apply decimal_S_inv in H as (x1 & s1 & c & H & Hc & -> & ->).
  apply decimal_S_inv in H as (x0 & s0 & c0 & H & Hc0 & -> & ->). apply decimal_0_inv in H as [-> ->].
  cbn [app getnum]. rewrite (digit_val_spec _ Hc0), (digit_val_spec _ Hc). f_equal.
Qed.
Lemma decimal4_reads x s rest : decimal 4 x s -> getyear (s ++ rest) = Some (x, rest).
Proof.
  intros H. apply decimal_S_inv in H as (x3 & s3 & c3 & H & Hc3 & -> & ->). apply decimal_S_inv in H as (x2 & s2 & c2 & H & Hc2 & -> & ->).
  apply decimal_S_inv in H as (x1 & s1 & c1 & H & Hc1 & -> & ->). apply decimal_S_inv in H as (x0 & s0 & c0 & H & Hc0 & -> & ->).
  apply decimal_0_inv in H as [-> ->].
  cbn [app getyear]. rewrite (digit_val_spec _ Hc0), (digit_val_spec _ Hc1), (digit_val_spec _ Hc2), (digit_val_spec _ Hc3). f_equal. f_equal. lia.
Qed.
Lemma decimal_head n x s : decimal (S n) x s -> exists c s', s = c :: s' /\ (48 <= nat_of_ascii c <= 57)%nat.
Proof.
  revert x s. induction n as [|n IH]; intros x s H; apply decimal_S_inv in H as (x' & s' & c & H & Hc & -> & ->).
  - apply decimal_0_inv in H as [-> ->]. eauto.
  - apply IH in H as (c' & s'' & -> & Hc'). eauto.
Qed.
Lemma no_space c : (48 <= nat_of_ascii c <= 57)%nat -> Ascii.eqb c " " = false.
Proof. intros H. apply Ascii.eqb_neq. intros ->. vm_compute in H. lia. Qed.

(** ** What is read is what was meant *)
Lemma fixdate_reads s t : fixdate s t -> parse_fixdate s = Some t.
Proof.
  intros (k & y & m & d & hh & mm & ss & wd & mo & ds & ys & hs & ms & sc & Hf & Hh & Hm & Hs & Ht & Hwd & Hmo & Hd & Hy & Hhs & Hms & Hsc & ->).
  assert (exists i, forall r, lookup_name shortDayNames 0 (wd ++ r) = Some (i, r)) as [i Hi].
  { unfold day_name in Hwd. repeat (apply elem_of_cons in Hwd as [Hwd|Hwd]; [injection Hwd as _ ->; eexists; reflexivity|]).
    by apply elem_of_nil in Hwd. }
  assert (forall r, lookup_name shortMonthNames 1 (mo ++ r) = Some (m, r)) as Hmon.
  { unfold month_name in Hmo. repeat (apply elem_of_cons in Hmo as [Hmo|Hmo]; [injection Hmo as -> ->; reflexivity|]).
    by apply elem_of_nil in Hmo. }
  assert (forall r, skip (L " ") (L " " ++ mo ++ r) = Some (mo ++ r)) as Hsp.
  { unfold month_name in Hmo. repeat (apply elem_of_cons in Hmo as [Hmo|Hmo]; [injection Hmo as _ ->; reflexivity|]).
    by apply elem_of_nil in Hmo. }
  assert (forall n x s r, decimal (S n) x s -> skip (L " ") (L " " ++ s ++ r) = Some (s ++ r)) as Hsk.
  { intros n x s r H. apply decimal_head in H as (c & s' & -> & Hc). pose proof (no_space c Hc) as Hn.
    change (L " ") with [" "%char]. cbn [app skip cutspace Ascii.eqb Bool.eqb]. rewrite Hn. reflexivity. }
  assert (forall n x s r, decimal (S n) x s -> skip (L ", ") (L ", " ++ s ++ r) = Some (s ++ r)) as Hsk2.
  { intros n x s r H. apply decimal_head in H as (c & s' & -> & Hc). pose proof (no_space c Hc) as Hn.
    change (L ", ") with [","; " "]%char. cbn [app skip cutspace Ascii.eqb Bool.eqb]. rewrite Hn. reflexivity. }
  assert (forall r, skip (L ":") (L ":" ++ r) = Some r) as Hcol by (intros r; reflexivity).
  unfold parse_fixdate. rewrite Hi, (Hsk2 _ _ _ _ Hd), (decimal2_reads _ _ _ true Hd), Hsp, Hmon, (Hsk _ _ _ _ Hy), (decimal4_reads _ _ _ Hy),
    (Hsk _ _ _ _ Hhs), (decimal2_reads _ _ _ false Hhs), Hcol, (decimal2_reads _ _ _ true Hms), Hcol, (decimal2_reads _ _ _ true Hsc).
  change (skip (L " GMT") (fraction (L " GMT"))) with (Some (@nil ascii)). cbv iota.
  pose proof (falls_absDays _ _ Hf _ _ _ eq_refl) as Ha. pose proof (falls_valid _ _ Hf) as Hv.
  unfold valid in Hv. rewrite !andb_true_iff, !Z.leb_le in Hv. destruct Hv as (((H1 & H2) & H3) & H4).
  rewrite (proj2 (Z.leb_gt 24 hh)), (proj2 (Z.leb_gt 60 mm)), (proj2 (Z.leb_gt 60 ss)), (proj2 (Z.ltb_ge d 1)), (proj2 (Z.ltb_ge (daysIn m y) d)) by lia.
  cbn [orb]. f_equal. lia.
Qed.

(** ** What is written *)
Lemma falls_year_order k y m d k' y' : falls k (y, m, d) -> falls k' (y', 1, 1) -> k < k' -> y < y'.
Proof.
  intros H H' Hlt. pose proof (falls_absDays _ _ H _ _ _ eq_refl) as E. pose proof (falls_absDays _ _ H' _ _ _ eq_refl) as E'.
  pose proof (in_year_bounds _ _ _ (falls_valid _ _ H)) as B.
  destruct (Z.lt_ge_cases y y') as [|Hge]; [done|].
  pose proof (year_starts y' (y - y') ltac:(lia)) as S. replace (y' + (y - y')) with y in S by lia. lia.
Qed.
Lemma falls_year_order' k y m d k' y' : falls k (y, m, d) -> falls k' (y', 1, 1) -> k' <= k -> y' <= y.
Proof.
  intros H H' Hle. pose proof (falls_absDays _ _ H _ _ _ eq_refl) as E. pose proof (falls_absDays _ _ H' _ _ _ eq_refl) as E'.
  pose proof (in_year_bounds _ _ _ (falls_valid _ _ H)) as B.
  destruct (Z.lt_ge_cases y y') as [Hlt|]; [|done].
  pose proof (year_starts (y + 1) (y' - (y + 1)) ltac:(lia)) as S. replace (y + 1 + (y' - (y + 1))) with y' in S by lia. lia.
Qed.
Lemma net_date_fixdate t : four_digits t -> fixdate (net_date t) t.
Proof.
  intros (a & b & Ha & Hb & Hab). unfold net_date. set (k := t / 86400). set (s := t mod 86400).
  pose proof (Z.div_mod t 86400 ltac:(lia)) as Et. pose proof (Z.mod_pos_bound t 86400 ltac:(lia)) as Bt. fold k s in Et, Bt.
  pose proof (falls_absDate k) as Hf. destruct (absDate (k + epoch)) as [[y m] d] eqn:Ed.
  assert (a <= k < b) as Hk by lia.
  pose proof (falls_year_order' _ _ _ _ _ _ Hf Ha ltac:(lia)) as Hy0. pose proof (falls_year_order _ _ _ _ _ _ Hf Hb ltac:(lia)) as Hy1.
  pose proof (falls_valid _ _ Hf) as Hv. unfold valid in Hv. rewrite !andb_true_iff, !Z.leb_le in Hv. destruct Hv as (((H1 & H2) & H3) & H4).
  assert (daysIn m y <= 31) as H31.
  { assert (month_has y m (daysIn m y)) as H' by (by apply month_has_spec). destruct H'; lia. }
  pose proof (Z.div_mod s 3600 ltac:(lia)) as E1. pose proof (Z.mod_pos_bound s 3600 ltac:(lia)) as B1.
  pose proof (Z.div_mod (s mod 3600) 60 ltac:(lia)) as E2. pose proof (Z.mod_pos_bound (s mod 3600) 60 ltac:(lia)) as B2.
  assert (s mod 60 = (s mod 3600) mod 60) as E3.
  { rewrite E1 at 1. replace (3600 * (s / 3600) + s mod 3600) with (s mod 3600 + (60 * (s / 3600)) * 60) by lia. by rewrite Z.mod_add. }
  exists k, y, m, d, (s / 3600), (s mod 3600 / 60), (s mod 60).
  do 7 eexists. split; [exact Hf|]. split; [lia|]. split; [lia|]. split; [lia|]. split; [lia|].
  split; [|split; [|split; [apply append2_decimal; lia|split; [apply append4_decimal; lia|split; [apply append2_decimal; lia|split; [apply append2_decimal; lia|split; [apply append2_decimal; lia|reflexivity]]]]]]].
  - unfold day_name. assert ((k + epoch + 1) mod 7 = (k mod 7 + 4) mod 7) as ->.
    { unfold epoch. rewrite <- Z.add_assoc, Z.add_mod, (Z.add_mod (k mod 7)), Z.mod_mod by lia. reflexivity. }
    pose proof (Z.mod_pos_bound k 7 ltac:(lia)) as B7. revert B7. generalize (k mod 7). intros r B7.
    assert (r = 0 \/ r = 1 \/ r = 2 \/ r = 3 \/ r = 4 \/ r = 5 \/ r = 6) as Hr by lia.
    repeat destruct Hr as [->|Hr]; try subst r; by apply (bool_decide_eq_true _).
  - unfold month_name.
    assert (m = 1 \/ m = 2 \/ m = 3 \/ m = 4 \/ m = 5 \/ m = 6 \/ m = 7 \/ m = 8 \/ m = 9 \/ m = 10 \/ m = 11 \/ m = 12) as Hm by lia.
    clear -Hm. repeat destruct Hm as [->|Hm]; try subst m; by apply (bool_decide_eq_true _).
Qed.
Lemma fixdate_text s t : fixdate s t -> s <> [] /\ forall t', fixdate s t' -> t = t'.
Proof.
  intros H. pose proof (fixdate_reads _ _ H) as E. split.
  - intros ->. discriminate.
  - intros t' H'. apply fixdate_reads in H'. congruence.
Qed.
