(** All dates that are read, and no others. *)
From Verif Require Import Base GoStr NetDate DateSpec DateLooseSpec DateFacts.
Local Open Scope Z_scope.

(** ** Letters *)
Definition low (a : ascii) : Z := let x := Z.of_nat (nat_of_ascii a) in if (65 <=? x) && (x <=? 90) then x + 32 else x.
Lemma lor_32 x : 0 <= x < 256 -> Z.lor x 32 = if Z.testbit x 5 then x else x + 32.
Proof.
  intros H. assert (all_from (fun x => Z.lor x 32 =? if Z.testbit x 5 then x else x + 32) 8 0 = true) as Ha by (vm_compute; reflexivity).
  apply Z.eqb_eq. apply (all_from_spec _ 8 0 x Ha). change (2 ^ Z.of_nat 8) with 256. lia.
Qed.
Lemma letter_bit x : 0 <= x < 256 -> 97 <= Z.lor x 32 <= 122 -> 65 <= x <= 90 /\ Z.lor x 32 = x + 32 \/ 97 <= x <= 122 /\ Z.lor x 32 = x.
Proof. intros H. rewrite (lor_32 x H). destruct (Z.testbit x 5); lia. Qed.
Lemma bit_letter x : 65 <= x <= 90 -> Z.lor x 32 = x + 32.
Proof.
  intros H. assert (all_from (fun x => if (65 <=? x) && (x <=? 90) then Z.lor x 32 =? x + 32 else true) 8 0 = true) as Ha by (vm_compute; reflexivity).
  pose proof (all_from_spec _ 8 0 x Ha) as Hs. change (2 ^ Z.of_nat 8) with 256 in Hs. specialize (Hs ltac:(lia)). cbv beta in Hs.
  rewrite (proj2 (Z.leb_le 65 x)), (proj2 (Z.leb_le x 90)) in Hs by lia. by apply Z.eqb_eq.
Qed.
Lemma bit_small x : 97 <= x <= 122 -> Z.lor x 32 = x.
Proof.
  intros H. assert (all_from (fun x => if (97 <=? x) && (x <=? 122) then Z.lor x 32 =? x else true) 8 0 = true) as Ha by (vm_compute; reflexivity).
  pose proof (all_from_spec _ 8 0 x Ha) as Hs. change (2 ^ Z.of_nat 8) with 256 in Hs. specialize (Hs ltac:(lia)). cbv beta in Hs.
  rewrite (proj2 (Z.leb_le 97 x)), (proj2 (Z.leb_le x 122)) in Hs by lia. by apply Z.eqb_eq.
Qed.
Lemma ascii_Z a b : Z.of_nat (nat_of_ascii a) = Z.of_nat (nat_of_ascii b) -> a = b.
Proof. intros E. apply Nat2Z.inj in E. rewrite <- (ascii_nat_embedding a), E. apply ascii_nat_embedding. Qed.
Lemma same_letter_spec a b : same_letter a b = true <-> either_case a b.
Proof.
  unfold same_letter, either_case. cbv zeta. set (x := Z.of_nat (nat_of_ascii a)). set (y := Z.of_nat (nat_of_ascii b)).
  assert (0 <= x < 256) as Hx by (unfold x; pose proof (nat_ascii_bounded a); lia).
  assert (0 <= y < 256) as Hy by (unfold y; pose proof (nat_ascii_bounded b); lia).
  rewrite orb_true_iff, !andb_true_iff, !Z.leb_le, !Z.eqb_eq. split.
  - intros [E|((E & H1) & H2)]; [left; by apply ascii_Z|].
    destruct (letter_bit x Hx ltac:(lia)) as [[Rx Ex]|[Rx Ex]], (letter_bit y Hy ltac:(lia)) as [[Ry Ey]|[Ry Ey]].
    + left. apply ascii_Z. fold x y. lia.
    + right. left. lia.
    + right. right. lia.
    + left. apply ascii_Z. fold x y. lia.
  - intros [->|[[R E]|[R E]]]; [by left|right|right].
    + rewrite (bit_letter x), (bit_small y) by lia. lia.
    + rewrite (bit_letter y), (bit_small x) by lia. lia.
Qed.
Lemma match_name_spec n s r : match_name n s = Some r <-> exists p, s = p ++ r /\ Forall2 either_case n p.
Proof.
  revert s. induction n as [|a n IH]; intros s; cbn [match_name].
  - split.
    + intros [= ->]. exists []. split; [done|constructor].
    + intros (p & -> & H). apply Forall2_nil_inv_l in H as ->. done.
  - destruct s as [|b s].
    + split; [done|]. intros (p & E & H). apply Forall2_cons_inv_l in H as (b & p' & _ & _ & ->). done.
    + split.
      * destruct (same_letter a b) eqn:E; [|done]. intros H. apply IH in H as (p & -> & Hp). exists (b :: p). split; [done|].
        constructor; [by apply same_letter_spec|done].
      * intros (p & E & H). apply Forall2_cons_inv_l in H as (b' & p' & Hb & Hp & ->). injection E as -> ->.
        apply same_letter_spec in Hb. rewrite Hb. apply IH. eauto.
Qed.
Lemma lookup_inv tab i s x r : lookup_name tab i s = Some (x, r) ->
  exists n p, s = p ++ r /\ Forall2 either_case n p /\ i <= x /\ tab !! Z.to_nat (x - i) = Some n.
Proof.
  revert i. induction tab as [|n tab IH]; intros i; cbn [lookup_name]; [done|].
  destruct (match_name n s) eqn:E.
  - intros [= <- <-]. apply match_name_spec in E as (p & -> & Hp). exists n, p. split; [done|]. split; [done|]. split; [lia|].
    by rewrite Z.sub_diag.
  - intros H. apply IH in H as (n' & p & -> & Hp & Hx & Hn). exists n', p. split; [done|]. split; [done|]. split; [lia|].
    replace (Z.to_nat (x - i)) with (S (Z.to_nat (x - (i + 1)))) by lia. done.
Qed.
(** the first name in the table that fits is the one *)
Definition apart (n n' : gostr) : bool := negb (forallb (fun '(a, b) => (low a =? low b)) (combine n n')).
Lemma either_low a b : either_case a b -> low a = low b.
Proof.
  unfold either_case, low. intros [->|[[R E]|[R E]]]; [done| |].
  - rewrite (proj2 (Z.leb_le 65 (Z.of_nat (nat_of_ascii a)))), (proj2 (Z.leb_le _ 90)) by lia. cbn [andb].
    rewrite (proj2 (Z.leb_gt (Z.of_nat (nat_of_ascii b)) 90)) by lia. rewrite andb_false_r. lia.
  - rewrite (proj2 (Z.leb_le 65 (Z.of_nat (nat_of_ascii b)))), (proj2 (Z.leb_le (Z.of_nat (nat_of_ascii b)) 90)) by lia. cbn [andb].
    rewrite (proj2 (Z.leb_gt (Z.of_nat (nat_of_ascii a)) 90)) by lia. rewrite andb_false_r. lia.
Qed.
Lemma apart_match n n' p p' r r' : apart n n' = true -> Forall2 either_case n p -> Forall2 either_case n' p' -> p ++ r = p' ++ r' -> False.
Proof.
  unfold apart. rewrite negb_true_iff. revert n' p p'. induction n as [|a n IH]; intros n' p p' Ha Hn Hn' E; [done|].
  destruct n' as [|a' n']; [done|]. apply Forall2_cons_inv_l in Hn as (b & q & Hb & Hq & ->). apply Forall2_cons_inv_l in Hn' as (b' & q' & Hb' & Hq' & ->).
  injection E as -> E. apply either_low in Hb, Hb'. cbn [combine forallb] in Ha. rewrite (proj2 (Z.eqb_eq (low a) (low a'))) in Ha by congruence.
  cbn [andb] in Ha. exact (IH n' q q' Ha Hq Hq' E).
Qed.
Fixpoint all_apart (tab : list gostr) : bool :=
  match tab with [] => true | n :: tab => forallb (fun n' => apart n n') tab && all_apart tab end.
Lemma lookup_intro tab i j n p r : all_apart tab = true -> tab !! j = Some n -> Forall2 either_case n p ->
  lookup_name tab i (p ++ r) = Some (i + Z.of_nat j, r).
Proof.
  revert i j. induction tab as [|n0 tab IH]; intros i j Ha Hj Hp; [done|]. cbn [all_apart] in Ha. apply andb_true_iff in Ha as [Ha Ha'].
  cbn [lookup_name]. destruct j as [|j].
  - injection Hj as ->. assert (match_name n (p ++ r) = Some r) as -> by (apply match_name_spec; eauto). do 2 f_equal. lia.
  - change (tab !! j = Some n) in Hj. destruct (match_name n0 (p ++ r)) eqn:E.
    + exfalso. apply match_name_spec in E as (q & E & Hq). rewrite forallb_forall in Ha.
      eapply (apart_match n0 n q p); [apply Ha, elem_of_list_In, elem_of_list_lookup; eauto|exact Hq|exact Hp|symmetry; exact E].
    + rewrite (IH (i + 1) j Ha' Hj Hp). do 2 f_equal. lia.
Qed.

(** ** Spaces *)
Lemma cutspace_inv s : exists w, Forall (fun a => a = " "%char) w /\ s = w ++ cutspace s.
Proof.
  induction s as [|a s (w & Hw & E)]; [exists []; split; [constructor|done]|]. cbn [cutspace].
  destruct (Ascii.eqb a " ") eqn:Ea; [|exists []; split; [constructor|done]].
  apply Ascii.eqb_eq in Ea as ->. exists (" "%char :: w). split; [by constructor|]. cbn [app]. by rewrite <- E.
Qed.
Definition unspaced (s : gostr) : Prop := match s with a :: _ => Ascii.eqb a " " = false | [] => True end.
Lemma cutspace_intro w s : Forall (fun a => a = " "%char) w -> unspaced s -> cutspace (w ++ s) = s.
Proof.
  intros Hw Hs. induction Hw as [|a w -> Hw IH]; [|exact IH]. cbn [app]. destruct s as [|a s]; [done|]. cbn [cutspace]. cbn [unspaced] in Hs. by rewrite Hs.
Qed.
Lemma skip_space_inv v r : skip (L " ") v = Some r -> v = [] /\ r = [] \/ exists w, spaces w /\ v = w ++ r.
Proof.
  change (L " ") with [" "%char]. cbn [skip Ascii.eqb Bool.eqb]. destruct v as [|a v]; [intros [= <-]; by left|].
  destruct (Ascii.eqb a " ") eqn:E; [|done]. intros [= <-]. right. destruct (cutspace_inv (a :: v)) as (w & Hw & Ew).
  exists w. split; [|exact Ew]. split; [|done]. intros ->. cbn [app cutspace] in Ew. rewrite E in Ew.
  assert (length (cutspace v) <= length v)%nat as Hl.
  { clear. induction v as [|a v IH]; cbn [cutspace]; [lia|]. destruct (Ascii.eqb a " "); cbn [length]; lia. }
  apply (f_equal (@length ascii)) in Ew. cbn [length] in Ew. lia.
Qed.
Lemma skip_space_intro w r : spaces w -> unspaced r -> skip (L " ") (w ++ r) = Some r.
Proof.
  intros [Hne Hw] Hr. pose proof (cutspace_intro w r Hw Hr) as Hc. change (L " ") with [" "%char]. cbn [skip Ascii.eqb Bool.eqb].
  destruct Hw as [|a w -> Hw]; [done|]. cbn [app] in *. cbn [Ascii.eqb Bool.eqb]. by rewrite Hc.
Qed.
Lemma skip_byte a v : Ascii.eqb a " " = false -> forall p, skip (a :: p) v = match v with b :: v' => if Ascii.eqb b a then skip p v' else None | [] => None end.
Proof. intros H p. cbn [skip]. by rewrite H. Qed.

(** ** Digits *)
Lemma digit_val_inv a x : digit_val a = Some x -> (48 <= nat_of_ascii a <= 57)%nat /\ x = Z.of_nat (nat_of_ascii a) - 48.
Proof.
  unfold digit_val. destruct ((48 <=? _) && _) eqn:E; [|done]. rewrite andb_true_iff, !Z.leb_le in E. intros [= <-]. split; [lia|done].
Qed.
Lemma decimal_1 a : (48 <= nat_of_ascii a <= 57)%nat -> decimal 1 (Z.of_nat (nat_of_ascii a) - 48) [a].
Proof. intros H. exact (de_S 0 0 [] a de_0 H). Qed.
Lemma getnum_inv s b x r : getnum s b = Some (x, r) -> exists p, s = p ++ r /\ (decimal 2 x p \/ b = false /\ decimal 1 x p).
Proof.
  destruct s as [|a s]; [done|]. cbn [getnum]. destruct (digit_val a) as [u|] eqn:Ea; [|done]. apply digit_val_inv in Ea as [Ha ->].
  pose proof (decimal_1 a Ha) as H1. destruct s as [|c s].
  - destruct b; [done|]. intros [= <- <-]. exists [a]. auto.
  - destruct (digit_val c) as [v|] eqn:Ec; [|destruct b; [done|]].
    + apply digit_val_inv in Ec as [Hc ->]. intros [= <- <-]. exists [a; c]. split; [done|]. left. exact (de_S 1 _ [a] c H1 Hc).
    + intros [= <- <-]. exists [a]. auto.
Qed.
Lemma getyear_inv s x r : getyear s = Some (x, r) -> exists p, s = p ++ r /\ decimal 4 x p.
Proof.
  destruct s as [|a [|b [|c [|d s]]]]; try done. cbn [getyear].
  destruct (digit_val a) eqn:Ea; [|done]. destruct (digit_val b) eqn:Eb; [|done]. destruct (digit_val c) eqn:Ec; [|done].
  destruct (digit_val d) eqn:Ed; [|done]. apply digit_val_inv in Ea as [Ha ->], Eb as [Hb ->], Ec as [Hc ->], Ed as [Hd ->].
  intros [= <- <-]. exists [a; b; c; d]. split; [done|].
  pose proof (de_S 3 _ [a; b; c] d (de_S 2 _ [a; b] c (de_S 1 _ [a] b (decimal_1 a Ha) Hb) Hc) Hd) as H.
  match type of H with decimal _ ?z _ => match goal with |- decimal _ ?z' _ => replace z' with z by lia end end. exact H.
Qed.
Lemma decimal1_reads x s a r : decimal 1 x s -> digit_val a = None -> getnum (s ++ a :: r) false = Some (x, a :: r).
Proof.
  intros H Ha. apply decimal_S_inv in H as (x0 & s0 & c0 & H & Hc0 & -> & ->). apply decimal_0_inv in H as [-> ->].
  cbn [app getnum]. by rewrite (digit_val_spec _ Hc0), Ha.
Qed.
Lemma drop_digits_inv s : exists p, s = p ++ drop_digits s /\ Forall (fun c => (48 <= nat_of_ascii c <= 57)%nat) p.
Proof.
  induction s as [|a s (p & E & Hp)]; [exists []; split; [done|constructor]|]. cbn [drop_digits].
  destruct (digit_val a) eqn:Ea; [|exists []; split; [done|constructor]]. apply digit_val_inv in Ea as [Ha _].
  exists (a :: p). split; [cbn [app]; by rewrite <- E|by constructor].
Qed.
Lemma drop_digits_intro p a r : Forall (fun c => (48 <= nat_of_ascii c <= 57)%nat) p -> digit_val a = None -> drop_digits (p ++ a :: r) = a :: r.
Proof.
  intros Hp Ha. induction Hp as [|c p Hc Hp IH]; [cbn [app drop_digits]; by rewrite Ha|]. cbn [app drop_digits]. by rewrite (digit_val_spec _ Hc).
Qed.
Lemma fraction_eq a b s : fraction (a :: b :: s) =
  if Ascii.eqb a "." then match digit_val b with Some _ => drop_digits s | None => a :: b :: s end else a :: b :: s.
Proof. destruct a as [[] [] [] [] [] [] [] []]; reflexivity. Qed.
Lemma fraction_inv s : exists p, s = p ++ fraction s /\ second_fraction p.
Proof.
  assert (forall s, exists p, s = p ++ s /\ second_fraction p) as H0 by (intros s'; exists []; split; [done|by left]).
  destruct s as [|a [|b s]]; [apply H0| |].
  - assert (fraction [a] = [a]) as -> by (destruct a as [[] [] [] [] [] [] [] []]; reflexivity). apply H0.
  - rewrite fraction_eq. destruct (Ascii.eqb a ".") eqn:Ea; [|apply H0]. destruct (digit_val b) eqn:Eb; [|apply H0].
    apply Ascii.eqb_eq in Ea as ->. apply digit_val_inv in Eb as [Hb _]. destruct (drop_digits_inv s) as (p & E & Hp).
    exists ("."%char :: b :: p). split; [cbn [app]; by rewrite <- E|]. right. exists (b :: p). split; [done|]. split; [done|by constructor].
Qed.
Lemma fraction_intro p w r : second_fraction p -> spaces w -> fraction (p ++ w ++ r) = w ++ r.
Proof.
  intros Hp [Hne Hw]. destruct Hw as [|a w -> Hw]; [done|]. destruct Hp as [->|(d & -> & Hd & Hp)].
  - cbn [app]. destruct (w ++ r) eqn:E; [reflexivity|]. by rewrite fraction_eq.
  - destruct Hp as [|b d Hb Hp]; [done|]. change ((L "." ++ b :: d) ++ (" "%char :: w) ++ r) with ("."%char :: b :: d ++ " "%char :: (w ++ r)).
    rewrite fraction_eq. change (Ascii.eqb "." ".") with true. rewrite (digit_val_spec _ Hb). by apply drop_digits_intro.
Qed.

(** ** Dates *)
Lemma falls_of y m d : valid (y, m, d) = true -> falls (absDays y m d - epoch) (y, m, d).
Proof.
  intros Hv. pose proof (falls_absDate (absDays y m d - epoch)) as H. replace (absDays y m d - epoch + epoch) with (absDays y m d) in H by lia.
  destruct (absDate (absDays y m d)) as [[y' m'] d'] eqn:E. apply absDate_spec in E as [Hv' E].
  by rewrite (absDays_inj _ _ _ _ _ _ Hv' Hv E) in H.
Qed.
Lemma day_names_in j n : shortDayNames !! j = Some n -> exists k, day_name k n.
Proof.
  intros H. destruct j as [|[|[|[|[|[|[|j]]]]]]]; [| | | | | | |done]; injection H as <-; [exists 3|exists 4|exists 5|exists 6|exists 0|exists 1|exists 2];
    unfold day_name; by apply (bool_decide_eq_true _).
Qed.
Lemma day_names_of k n : day_name k n -> exists j, shortDayNames !! j = Some n.
Proof.
  unfold day_name. intros H. repeat (apply elem_of_cons in H as [H|H]; [injection H as _ ->|]);
    [by exists 4%nat|by exists 5%nat|by exists 6%nat|by exists 0%nat|by exists 1%nat|by exists 2%nat|by exists 3%nat|by apply elem_of_nil in H].
Qed.
Lemma month_names_in m n : 1 <= m -> shortMonthNames !! Z.to_nat (m - 1) = Some n -> month_name m n /\ m <= 12.
Proof.
  intros Hm H. assert (Z.to_nat (m - 1) < 12)%nat as Hl by (apply lookup_lt_Some in H; exact H). split; [|lia].
  assert (m = 1 \/ m = 2 \/ m = 3 \/ m = 4 \/ m = 5 \/ m = 6 \/ m = 7 \/ m = 8 \/ m = 9 \/ m = 10 \/ m = 11 \/ m = 12) as Hm' by lia.
  clear Hm Hl. repeat destruct Hm' as [->|Hm']; try subst m; injection H as <-; unfold month_name; by apply (bool_decide_eq_true _).
Qed.
Lemma month_names_of m n : month_name m n -> exists j, shortMonthNames !! j = Some n /\ m = 1 + Z.of_nat j.
Proof.
  unfold month_name. intros H. repeat (apply elem_of_cons in H as [H|H]; [injection H as -> ->|]);
    [by exists 0%nat|by exists 1%nat|by exists 2%nat|by exists 3%nat|by exists 4%nat|by exists 5%nat|by exists 6%nat|by exists 7%nat|by exists 8%nat|by exists 9%nat
    |by exists 10%nat|by exists 11%nat|by apply elem_of_nil in H].
Qed.
Lemma decimal_nonneg n x s : decimal n x s -> 0 <= x.
Proof. induction 1; lia. Qed.
Lemma cons_byte a v r : (match v with b :: v' => if Ascii.eqb b a then Some v' else None | [] => None end) = Some r -> v = a :: r.
Proof. destruct v as [|b v]; [done|]. destruct (Ascii.eqb b a) eqn:E; [|done]. apply Ascii.eqb_eq in E as ->. by intros [= ->]. Qed.
Lemma skip_comma v r : skip (L ", ") v = Some r -> exists v', v = ","%char :: v' /\ skip (L " ") v' = Some r.
Proof.
  change (L ", ") with (","%char :: L " "). rewrite skip_byte by done. destruct v as [|b v]; [done|].
  destruct (Ascii.eqb b ",") eqn:E; [|done]. apply Ascii.eqb_eq in E as ->. eauto.
Qed.
Lemma skip_colon v r : skip (L ":") v = Some r -> v = ":"%char :: r.
Proof.
  change (L ":") with [":"%char]. rewrite skip_byte by done. destruct v as [|b v]; [done|].
  destruct (Ascii.eqb b ":") eqn:E; [|done]. apply Ascii.eqb_eq in E as ->. cbn [skip]. by intros [= ->].
Qed.
Lemma skip_gmt v : skip (L " GMT") v = Some [] -> exists w, spaces w /\ v = w ++ L "GMT".
Proof.
  intros H. assert (exists u, skip (L " ") v = Some u /\ skip (L "GMT") u = Some []) as (u & H1 & H2).
  { change (L " GMT") with (" "%char :: L "GMT") in H. change (L " ") with [" "%char]. cbn [skip] in *. change (Ascii.eqb " " " ") with true in *. cbv iota in *.
    destruct v as [|a v]; [eauto|]. destruct (Ascii.eqb a " "); [eauto|done]. }
  assert (u = L "GMT") as ->.
  { change (L "GMT") with ["G"; "M"; "T"]%char in H2. rewrite skip_byte in H2 by done. destruct u as [|a u]; [done|]. destruct (Ascii.eqb a "G") eqn:Ea; [|done].
    rewrite skip_byte in H2 by done. destruct u as [|b u]; [done|]. destruct (Ascii.eqb b "M") eqn:Eb; [|done].
    rewrite skip_byte in H2 by done. destruct u as [|c u]; [done|]. destruct (Ascii.eqb c "T") eqn:Ec; [|done].
    cbn [skip] in H2. injection H2 as ->. apply Ascii.eqb_eq in Ea as ->, Eb as ->, Ec as ->. done. }
  apply skip_space_inv in H1 as [[_ E]|H1]; [done|exact H1].
Qed.
Lemma read_loose s t : parse_fixdate s = Some t -> loose_date s t.
Proof.
  unfold parse_fixdate.
  destruct (lookup_name shortDayNames 0 s) as [[i s1]|] eqn:E1; [|done]. apply lookup_inv in E1 as (wn & wd & -> & Hwd & _ & Hw).
  destruct (skip (L ", ") s1) as [s2|] eqn:E2; [|done]. apply skip_comma in E2 as (v1 & -> & E2).
  destruct (getnum s2 true) as [[day s3]|] eqn:E3; [|done]. apply getnum_inv in E3 as (ds & -> & [Hds|[? _]]); [|done].
  apply skip_space_inv in E2 as [[_ E2]|(w1 & W1 & ->)].
  { exfalso. apply decimal_head in Hds as (? & ? & -> & _). done. }
  destruct (skip (L " ") s3) as [s4|] eqn:E4; [|done].
  destruct (lookup_name shortMonthNames 1 s4) as [[month s5]|] eqn:E5; [|done]. apply lookup_inv in E5 as (mn & mo & -> & Hmo & Hm1 & Hm).
  destruct (month_names_in _ _ Hm1 Hm) as [Hmn Hm12].
  apply skip_space_inv in E4 as [[_ E4]|(w2 & W2 & ->)].
  { exfalso. destruct mo; [|done]. apply Forall2_nil_inv_r in Hmo as ->. clear -Hmn. revert Hmn. unfold month_name.
    intros H. repeat (apply elem_of_cons in H as [H|H]; [discriminate H|]). by apply elem_of_nil in H. }
  destruct (skip (L " ") s5) as [s6|] eqn:E6; [|done].
  destruct (getyear s6) as [[year s7]|] eqn:E7; [|done]. apply getyear_inv in E7 as (ys & -> & Hys).
  apply skip_space_inv in E6 as [[_ E6]|(w3 & W3 & ->)].
  { exfalso. apply decimal_head in Hys as (? & ? & -> & _). done. }
  destruct (skip (L " ") s7) as [s8|] eqn:E8; [|done].
  destruct (getnum s8 false) as [[hour s9]|] eqn:E9; [|done]. apply getnum_inv in E9 as (hs & -> & Hhs).
  apply skip_space_inv in E8 as [[_ E8]|(w4 & W4 & ->)].
  { exfalso. destruct Hhs as [Hhs|[_ Hhs]]; apply decimal_head in Hhs as (? & ? & -> & _); done. }
  destruct (skip (L ":") s9) as [s10|] eqn:E10; [|done]. apply skip_colon in E10 as ->.
  destruct (getnum s10 true) as [[mins s11]|] eqn:E11; [|done]. apply getnum_inv in E11 as (ms & -> & [Hms|[? _]]); [|done].
  destruct (skip (L ":") s11) as [s12|] eqn:E12; [|done]. apply skip_colon in E12 as ->.
  destruct (getnum s12 true) as [[sec s13]|] eqn:E13; [|done]. apply getnum_inv in E13 as (sc & -> & [Hsc|[? _]]); [|done].
  destruct (skip (L " GMT") (fraction s13)) as [[|]|] eqn:E14; [|done|done]. apply skip_gmt in E14 as (w5 & W5 & E14).
  destruct (fraction_inv s13) as (fr & E15 & Hfr). rewrite E14 in E15. subst s13. clear E14.
  destruct (_ || _) eqn:Hb; [done|]. intros [= <-].
  rewrite !orb_false_iff, !Z.leb_gt, !Z.ltb_ge in Hb. destruct Hb as ((((B1 & B2) & B3) & B4) & B5).
  assert (valid (year, month, day) = true) as Hv by (unfold valid; rewrite !andb_true_iff, !Z.leb_le; lia).
  destruct (day_names_in _ _ Hw) as [k' Hk'].
  assert (0 <= hour) as P1 by (destruct Hhs as [Hhs|[_ Hhs]]; by eapply decimal_nonneg). pose proof (decimal_nonneg _ _ _ Hms) as P2. pose proof (decimal_nonneg _ _ _ Hsc) as P3.
  exists (absDays year month day - epoch), year, month, day, hour, mins, sec, k', wn, wd, mn, mo, ds, ys, hs, ms, sc, fr, w1, w2, w3, w4, w5.
  split; [by apply falls_of|]. split; [lia|]. split; [lia|]. split; [lia|]. split; [lia|].
  split; [done|]. split; [done|]. split; [done|]. split; [done|]. split; [done|]. split; [done|].
  split; [destruct Hhs as [Hhs|[_ Hhs]]; auto|]. split; [done|]. split; [done|]. split; [done|].
  split; [repeat (apply Forall_cons; split; [done|]); by apply Forall_nil|]. reflexivity.
Qed.
Lemma loose_read s t : loose_date s t -> parse_fixdate s = Some t.
Proof.
  intros (k & y & m & d & hh & mm & ss & k' & wn & wd & mn & mo & ds & ys & hs & ms & sc & fr & w1 & w2 & w3 & w4 & w5 &
    Hf & Hh & Hm & Hs & Ht & Hwn & Hwd & Hmn & Hmo & Hds & Hys & Hhs & Hms & Hsc & Hfr & Hw & ->).
  rewrite !Forall_cons in Hw. destruct Hw as (W1 & W2 & W3 & W4 & W5 & _).
  destruct (day_names_of _ _ Hwn) as [j Hj]. destruct (month_names_of _ _ Hmn) as (j' & Hj' & Em).
  assert (forall n x s r, decimal (S n) x s -> unspaced (s ++ r)) as Hun.
  { intros n x s r H. apply decimal_head in H as (c & s' & -> & Hc). cbn. by apply no_space. }
  assert (forall r, unspaced (mo ++ r)) as Hum.
  { intros r. assert (exists a mn', mn = a :: mn' /\ 65 <= Z.of_nat (nat_of_ascii a)) as (a & mn' & -> & Ha).
    { clear -Hmn. unfold month_name in Hmn. repeat (apply elem_of_cons in Hmn as [H|Hmn]; [injection H as _ ->; eexists _, _; split; [reflexivity|by vm_compute]|]).
      by apply elem_of_nil in Hmn. }
    apply Forall2_cons_inv_l in Hmo as (b & p & Hb & _ & ->). cbn [app unspaced]. apply Ascii.eqb_neq. intros ->.
    unfold either_case in Hb. change (Z.of_nat (nat_of_ascii " ")) with 32 in Hb. destruct Hb as [->|Hb]; [|lia].
    change (Z.of_nat (nat_of_ascii " ")) with 32 in Ha. lia. }
  assert (digit_val ":" = None) as Hcol by reflexivity.
  assert (forall r, getnum (hs ++ L ":" ++ r) false = Some (hh, L ":" ++ r)) as Hgh.
  { intros r. destruct Hhs as [Hhs|Hhs]; [by apply decimal1_reads|by apply decimal2_reads]. }
  assert (forall r, unspaced (hs ++ r)) as Huh by (intros r; destruct Hhs as [Hhs|Hhs]; by eapply Hun).
  assert (forall r, skip (L ":") (L ":" ++ r) = Some r) as Hsk by reflexivity.
  unfold parse_fixdate. rewrite (lookup_intro shortDayNames 0 j wn wd _ eq_refl Hj Hwd).
  assert (forall v, skip (L ", ") (L "," ++ v) = skip (L " ") v) as -> by reflexivity.
  rewrite (skip_space_intro w1 _ W1 (Hun _ _ _ _ Hds)), (decimal2_reads _ _ _ true Hds), (skip_space_intro w2 _ W2 (Hum _)),
    (lookup_intro shortMonthNames 1 j' mn mo _ eq_refl Hj' Hmo), (skip_space_intro w3 _ W3 (Hun _ _ _ _ Hys)), (decimal4_reads _ _ _ Hys),
    (skip_space_intro w4 _ W4 (Huh _)), Hgh, Hsk, (decimal2_reads _ _ _ true Hms), Hsk, (decimal2_reads _ _ _ true Hsc), (fraction_intro fr w5 _ Hfr W5).
  assert (skip (L " GMT") (w5 ++ L "GMT") = Some []) as ->.
  { destruct W5 as [Hne W5]. pose proof (cutspace_intro w5 (L "GMT") W5 eq_refl) as Hc. destruct W5 as [|a w -> W5]; [done|].
    change (L " GMT") with (" "%char :: L "GMT"). cbn [app skip] in *. change (Ascii.eqb " " " ") with true. cbv iota. by rewrite Hc. }
  rewrite <- Em.
  pose proof (falls_absDays _ _ Hf _ _ _ eq_refl) as Ha. pose proof (falls_valid _ _ Hf) as Hv.
  unfold valid in Hv. rewrite !andb_true_iff, !Z.leb_le in Hv. destruct Hv as (((H1 & H2) & H3) & H4).
  rewrite (proj2 (Z.leb_gt 24 hh)), (proj2 (Z.leb_gt 60 mm)), (proj2 (Z.leb_gt 60 ss)), (proj2 (Z.ltb_ge d 1)), (proj2 (Z.ltb_ge (daysIn m y) d)) by lia.
  cbn [orb]. f_equal. lia.
Qed.
