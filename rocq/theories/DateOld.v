(** The old forms of dates are read as what they mean. *)
From Verif Require Import Base GoStr NetDate NetDateOld DateSpec DateOldSpec DateFacts.
Local Open Scope Z_scope.

Lemma skip_digits n x s r : decimal (S n) x s -> skip (L " ") (L " " ++ s ++ r) = Some (s ++ r).
Proof.
  intros H. apply decimal_head in H as (c & s' & -> & Hc). pose proof (no_space c Hc) as Hn.
  change (L " ") with [" "%char]. cbn [app skip cutspace Ascii.eqb Bool.eqb]. rewrite Hn. reflexivity.
Qed.
Lemma skip_digits_comma n x s r : decimal (S n) x s -> skip (L ", ") (L ", " ++ s ++ r) = Some (s ++ r).
Proof.
  intros H. apply decimal_head in H as (c & s' & -> & Hc). pose proof (no_space c Hc) as Hn.
  change (L ", ") with [","; " "]%char. cbn [app skip cutspace Ascii.eqb Bool.eqb]. rewrite Hn. reflexivity.
Qed.
Lemma skip_two n x s r : decimal (S n) x s -> skip (L " ") (L " " ++ L " " ++ s ++ r) = Some (s ++ r).
Proof.
  intros H. apply decimal_head in H as (c & s' & -> & Hc). pose proof (no_space c Hc) as Hn.
  change (L " ") with [" "%char]. cbn [app skip cutspace Ascii.eqb Bool.eqb]. rewrite Hn. reflexivity.
Qed.
Lemma month_reads m mo : month_name m mo -> forall r, lookup_name shortMonthNames 1 (mo ++ r) = Some (m, r).
Proof.
  intros H r. unfold month_name in H. repeat (apply elem_of_cons in H as [H|H]; [injection H as -> ->; reflexivity|]). by apply elem_of_nil in H.
Qed.
Lemma month_space m mo : month_name m mo -> forall r, skip (L " ") (L " " ++ mo ++ r) = Some (mo ++ r).
Proof.
  intros H r. unfold month_name in H. repeat (apply elem_of_cons in H as [H|H]; [injection H as _ ->; reflexivity|]). by apply elem_of_nil in H.
Qed.
Lemma one_reads d c r : decimal 1 d c -> getnum (c ++ L " " ++ r) false = Some (d, L " " ++ r).
Proof.
  intros H. apply decimal_S_inv in H as (x & s & a & H & Ha & -> & ->). apply decimal_0_inv in H as [-> ->].
  change (L " ") with [" "%char]. cbn [app getnum]. rewrite (digit_val_spec _ Ha). change (digit_val " ") with (@None Z). cbn iota. f_equal.
Qed.
Lemma moment_of k y m d hh mm ss : falls k (y, m, d) -> 0 <= hh < 24 -> 0 <= mm < 60 -> 0 <= ss < 60 ->
  moment y m d hh mm ss = Some (86400 * k + (3600 * hh + 60 * mm + ss)).
Proof.
  intros Hf Hh Hm Hs. pose proof (falls_absDays _ _ Hf _ _ _ eq_refl) as Ha. pose proof (falls_valid _ _ Hf) as Hv.
  unfold valid in Hv. rewrite !andb_true_iff, !Z.leb_le in Hv. destruct Hv as (((H1 & H2) & H3) & H4). unfold moment.
  rewrite (proj2 (Z.leb_gt 24 hh)), (proj2 (Z.leb_gt 60 mm)), (proj2 (Z.leb_gt 60 ss)), (proj2 (Z.ltb_ge d 1)), (proj2 (Z.ltb_ge (daysIn m y) d)) by lia.
  cbn [orb]. f_equal. lia.
Qed.
Lemma fraction_space r : fraction (L " " ++ r) = L " " ++ r.
Proof. reflexivity. Qed.
Lemma colon r : skip (L ":") (L ":" ++ r) = Some r.
Proof. reflexivity. Qed.
Lemma dash r : skip (L "-") (L "-" ++ r) = Some r.
Proof. reflexivity. Qed.

Lemma yy_reads x s rest : decimal 2 x s -> getyy (s ++ rest) = Some (x, rest).
Proof.
  intros H. apply decimal_S_inv in H as (x1 & s1 & c1 & H & Hc1 & -> & ->). apply decimal_S_inv in H as (x0 & s0 & c0 & H & Hc0 & -> & ->).
  apply decimal_0_inv in H as [-> ->]. cbn [app getyy]. rewrite (digit_val_spec _ Hc0), (digit_val_spec _ Hc1). f_equal.
Qed.

Lemma rfc850_reads zoned s t : rfc850_date s t -> parse_fixdate s = None /\ parse_rfc850 zoned s = Some t.
Proof.
  intros (k & n & y & m & d & wd & mo & ds & ys & tod & Hf & -> & Hy & Hwd & Hmo & Hd & Hys & (hh & mm & ss & hs & ms & sc & Hh & Hm & Hs & -> & Hhs & Hms & Hsc & ->) & ->).
  assert (forall r, parse_fixdate (wd ++ r) = None /\ exists i, lookup_name longDayNames 0 (wd ++ r) = Some (i, r)) as Hday.
  { intros r. unfold long_day in Hwd. repeat (apply elem_of_cons in Hwd as [Hwd|Hwd]; [injection Hwd as _ ->; split; [reflexivity|eexists; reflexivity]|]).
    by apply elem_of_nil in Hwd. }
  split; [apply Hday|]. edestruct Hday as [_ [i Hi]]. unfold parse_rfc850. rewrite Hi. clear i Hi Hday.
  rewrite (skip_digits_comma _ _ _ _ Hd), (decimal2_reads _ _ _ true Hd), dash, (month_reads _ _ Hmo), dash, (yy_reads _ _ _ Hys).
  rewrite <- !app_assoc.
  rewrite (skip_digits _ _ _ _ Hhs), (decimal2_reads _ _ _ false Hhs), colon, (decimal2_reads _ _ _ true Hms), colon, (decimal2_reads _ _ _ true Hsc).
  change (skip (L " ") (fraction (L " GMT"))) with (Some (L "GMT")). cbv iota zeta.
  assert ((if 69 <=? y mod 100 then 1900 + y mod 100 else 2000 + y mod 100) = y) as ->.
  { destruct (Z.leb_spec 69 (y mod 100)); pose proof (Z.div_mod y 100 ltac:(lia)); pose proof (Z.mod_pos_bound y 100 ltac:(lia)); lia. }
  by rewrite (moment_of k).
Qed.

Lemma asctime_reads zoned s t : asctime_date s t -> parse_fixdate s = None /\ parse_rfc850 zoned s = None /\ parse_asctime s = Some t.
Proof.
  intros (k & n & y & m & d & wd & mo & ds & ys & tod & Hf & -> & Hwd & Hmo & Hd & Hys & (hh & mm & ss & hs & ms & sc & Hh & Hm & Hs & -> & Hhs & Hms & Hsc & ->) & ->).
  assert (forall r, parse_fixdate (wd ++ L " " ++ r) = None /\ parse_rfc850 zoned (wd ++ L " " ++ r) = None) as Hnot.
  { intros r. unfold day_name in Hwd. repeat (apply elem_of_cons in Hwd as [Hwd|Hwd]; [injection Hwd as _ ->; split; reflexivity|]). by apply elem_of_nil in Hwd. }
  assert (forall r, exists i, lookup_name shortDayNames 0 (wd ++ r) = Some (i, r)) as Hday.
  { intros r. unfold day_name in Hwd. repeat (apply elem_of_cons in Hwd as [Hwd|Hwd]; [injection Hwd as _ ->; eexists; reflexivity|]). by apply elem_of_nil in Hwd. }
  split; [apply Hnot|]. split; [apply Hnot|]. edestruct Hday as [i Hi]. unfold parse_asctime. rewrite Hi. clear i Hi Hday Hnot.
  rewrite (month_space _ _ Hmo), (month_reads _ _ Hmo).
  assert (forall r, exists q, skip (L " ") (L " " ++ ds ++ L " " ++ r) = Some q /\ getnum q false = Some (d, L " " ++ r)) as Hday.
  { intros r. destruct Hd as [Hd|(c & Hd & ->)].
    - eexists. split; [apply (skip_digits _ _ _ _ Hd)|]. apply (decimal2_reads _ _ _ false Hd).
    - eexists. rewrite <- app_assoc. split; [apply (skip_two _ _ _ _ Hd)|]. by apply one_reads. }
  edestruct Hday as (q & Hq1 & Hq2). rewrite Hq1, Hq2. clear q Hq1 Hq2 Hday. rewrite <- !app_assoc.
  rewrite (skip_digits _ _ _ _ Hhs), (decimal2_reads _ _ _ false Hhs), colon, (decimal2_reads _ _ _ true Hms), colon, (decimal2_reads _ _ _ true Hsc), fraction_space.
  rewrite <- (app_nil_r ys), (skip_digits _ _ _ _ Hys), (decimal4_reads _ _ _ Hys). by apply moment_of.
Qed.

Lemma any_reads zoned s t : any_date s t -> net_parse_time (net_parse_old zoned) s = Some t.
Proof.
  unfold net_parse_time, net_parse_old. intros [H|[H|H]].
  - by rewrite (fixdate_reads s t H).
  - apply (rfc850_reads zoned) in H as [-> ->]. done.
  - apply (asctime_reads zoned) in H as (-> & -> & ->). done.
Qed.
Lemma any_text s t : any_date s t -> s <> [].
Proof. intros H ->. pose proof (any_reads (fun _ _ => None) _ _ H) as E. vm_compute in E. discriminate. Qed.
Lemma any_fun s t t' : any_date s t -> any_date s t' -> t = t'.
Proof. intros H H'. apply (any_reads (fun _ _ => None)) in H, H'. congruence. Qed.
