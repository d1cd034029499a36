(** Pattern analysis against the grammar of PatternSpec.v. *)
From Verif Require Import Base GoStr GoStrFacts Pattern PatternSpec.

Lemma index_byte_app c a b :
  index_byte c (a ++ b) =
  match index_byte c a with
  | Some i => Some i
  | None => match index_byte c b with Some i => Some (length a + i) | None => None end
  end.
Proof.
  induction a as [|x a IH]; simpl.
  - by destruct (index_byte c b).
  - destruct (Ascii.eqb x c); [done|]. rewrite IH.
    destruct (index_byte c a); [done|]. by destruct (index_byte c b).
Qed.

Lemma index_byte_angle c body :
  c <> "<"%char -> c <> ">"%char ->
  index_byte c (angle body) = match index_byte c body with Some i => Some (S i) | None => None end.
Proof.
  intros H1 H2. unfold angle. cbn [index_byte].
  destruct (Ascii.eqb_spec "<" c); [congruence|]. rewrite index_byte_app.
  destruct (index_byte c body); [done|]. cbn [index_byte].
  destruct (Ascii.eqb_spec ">" c); [congruence|]. done.
Qed.

Lemma last_index_snoc c s : last_index_byte c (s ++ [c]) = Some (length s).
Proof.
  induction s as [|a s IH]; simpl; [by rewrite Ascii.eqb_refl|]. by rewrite IH.
Qed.
Lemma last_index_end c s : last_index_byte c s = Some (length s - 1) -> exists r, s = r ++ [c].
Proof.
  destruct s as [|a s _] using rev_ind; [done|]. rewrite app_length. simpl.
  replace (length s + 1 - 1) with (length s) by lia. intros Hl. exists s. f_equal.
  assert (Hgen : forall s, last_index_byte c (s ++ [a]) = Some (length s) -> a = c).
  { clear. induction s as [|b s IH]; simpl.
    - destruct (Ascii.eqb_spec a c); [done|discriminate].
    - destruct (last_index_byte c (s ++ [a])) as [i|] eqn:E.
      + intros Hi. inversion Hi; subst. by apply IH.
      + destruct (Ascii.eqb b c); discriminate. }
  by rewrite (Hgen s Hl).
Qed.

Lemma trim_left_id a s : is_space1 a = false -> (byte_of a < 128)%N -> trim_left_space (a :: s) = a :: s.
Proof.
  intros Hs Hb. simpl. rewrite Hs. destruct s as [|b s]; [done|].
  unfold is_space2. destruct (N.eqb_spec (byte_of a) 194); [lia|]. simpl.
  destruct s as [|c s]; [done|]. unfold is_space3.
  destruct (N.eqb_spec (byte_of a) 225); [lia|]. destruct (N.eqb_spec (byte_of a) 226); [lia|].
  destruct (N.eqb_spec (byte_of a) 227); [lia|]. done.
Qed.
Lemma trim_right_id a s : is_space1 a = false -> (byte_of a < 128)%N -> trim_right_space (s ++ [a]) = s ++ [a].
Proof.
  intros Hs Hb. unfold trim_right_space. rewrite rev_app_distr. cbn [rev app].
  assert (trim_left_space_rev (a :: rev s) = a :: rev s) as ->.
  { simpl. rewrite Hs. destruct (rev s) as [|b r]; [done|].
    unfold is_space2. destruct (N.eqb_spec (byte_of a) 133); [lia|].
    destruct (N.eqb_spec (byte_of a) 160); [lia|]. rewrite andb_false_r.
    destruct r as [|c r]; [done|]. unfold is_space3.
    destruct (N.eqb_spec (byte_of a) 128); [lia|].
    destruct (N.leb_spec 128 (byte_of a)); [lia|].
    destruct (N.eqb_spec (byte_of a) 168); [lia|].
    destruct (N.eqb_spec (byte_of a) 169); [lia|].
    destruct (N.eqb_spec (byte_of a) 175); [lia|].
    destruct (N.eqb_spec (byte_of a) 159); [lia|].
    by rewrite !andb_false_r. }
  simpl. by rewrite rev_involutive.
Qed.
Lemma trim_space_angle body : trim_space (angle body) = angle body.
Proof.
  unfold trim_space, angle. rewrite trim_left_id by done.
  change ("<"%char :: body ++ [">"%char]) with (("<"%char :: body) ++ [">"%char]).
  by rewrite trim_right_id.
Qed.

(** *** getparsedPattern *)
Lemma getparsed_angle body : getparsedPattern (angle body) = Ok (trim_space (name_part body)).
Proof.
  unfold getparsedPattern.
  assert (has_prefix (L "*") (angle body) = false) as -> by done.
  assert (contains_any (L "<>") (angle body) = true) as ->.
  { apply contains_any_true. exists "<"%char. split; [left|left]. }
  cbn [negb]. assert (index_byte "<" (angle body) = Some 0) as -> by done.
  assert (last_index_byte ">" (angle body) = Some (S (length body))) as ->.
  { unfold angle. change ("<"%char :: body ++ [">"%char]) with (("<"%char :: body) ++ [">"%char]).
    apply last_index_snoc. }
  assert (length (angle body) = S (S (length body))) as Hlen.
  { unfold angle. simpl. rewrite app_length. simpl. lia. }
  rewrite Hlen. replace (S (length body) =? S (S (length body)) - 1) with true
    by (symmetry; apply Nat.eqb_eq; lia).
  rewrite !index_byte_angle by done.
  assert (Hslice : forall k, k <= length body -> slice (angle body) 1 (S k) = Ok (take k body)).
  { intros k Hk. unfold slice. rewrite Hlen. destruct (Nat.leb_spec 1 (S k)); [|lia].
    destruct (Nat.leb_spec (S k) (S (S (length body)))); [|lia]. simpl. rewrite Nat.sub_0_r, drop_0.
    by rewrite take_app_le. }
  unfold name_part, before_byte.
  destruct (index_byte ":" body) as [i|] eqn:E1.
  - pose proof (index_byte_Some _ _ _ E1) as (Hb & _ & Hi). rewrite Hslice by lia. cbn [rbind].
    rewrite decide_True; [done|]. rewrite Hb. set_solver.
  - apply index_byte_None in E1. rewrite decide_False by done.
    destruct (index_byte "~" body) as [i|] eqn:E2.
    + pose proof (index_byte_Some _ _ _ E2) as (Hb & _ & Hi). rewrite Hslice by lia. done.
    + rewrite Hslice by lia. cbn [rbind]. by rewrite firstn_all.
Qed.

Lemma angle_shape s :
  index_byte "<" s = Some 0 -> last_index_byte ">" s = Some (length s - 1) -> exists body, s = angle body.
Proof.
  intros H1 H2. destruct s as [|a s]; [done|]. simpl in H1.
  destruct (Ascii.eqb_spec a "<") as [->|].
  2: { destruct (index_byte "<" s); discriminate. }
  apply last_index_end in H2 as (r & Hr). destruct r as [|b r]; [done|].
  inversion Hr; subst. by exists r.
Qed.

Lemma contains_byte_angle c body :
  c <> "<"%char -> c <> ">"%char -> contains_byte c (angle body) = contains_byte c body.
Proof.
  intros H1 H2. destruct (contains_byte c body) eqn:E.
  - apply contains_byte_true in E. apply contains_byte_true. unfold angle. set_solver.
  - apply contains_byte_false in E. apply contains_byte_false. unfold angle. set_solver.
Qed.

(** *** partternRegexp *)
Lemma regexp_slice body :
  "~"%char ∈ body -> ">"%char ∉ before_byte "~" body ->
  exists i j, index_byte "~" (angle body) = Some i /\ index_byte ">" (angle body) = Some j /\
    slice (angle body) (i + 1) j = Ok (before_byte ">" (after_byte "~" body)).
Proof.
  intros Hin Hgt. rewrite index_byte_angle by done. unfold before_byte in Hgt. unfold after_byte.
  destruct (index_byte "~" body) as [i|] eqn:E; [|apply index_byte_None in E; done].
  apply index_byte_Some in E as (Hb & Hn & Hi).
  set (pre := take i body) in *. set (mid := drop (S i) body) in *.
  assert (Hlp : length pre = i) by (apply take_length_le; lia).
  assert (Ha : angle body = ("<"%char :: pre ++ ["~"%char]) ++ mid ++ [">"%char]).
  { unfold angle. rewrite Hb at 1. simpl. rewrite <- !app_assoc. done. }
  assert (Hla : length ("<"%char :: pre ++ ["~"%char]) = S (S i)).
  { simpl. rewrite app_length. simpl. lia. }
  assert (Hp : index_byte ">" ("<"%char :: pre ++ ["~"%char]) = None).
  { apply index_byte_None. set_solver. }
  exists (S i).
  assert (Hmid : index_byte ">" (mid ++ [">"%char]) = Some (length (before_byte ">" mid))).
  { rewrite index_byte_app. unfold before_byte. destruct (index_byte ">" mid) as [k|] eqn:Ek.
    - apply index_byte_Some in Ek as (_ & _ & Hk). by rewrite take_length_le by lia.
    - simpl. f_equal. lia. }
  exists (S (S i) + length (before_byte ">" mid)). split; [done|]. split.
  { rewrite Ha, index_byte_app, Hp, Hmid, Hla. done. }
  assert (Hle : length (before_byte ">" mid) <= length mid).
  { unfold before_byte. destruct (index_byte ">" mid); [|lia]. rewrite take_length. lia. }
  unfold slice. destruct (Nat.leb_spec (S i + 1) (S (S i) + length (before_byte ">" mid))); [|lia].
  assert (Hlen : length (angle body) = S (S i) + length mid + 1).
  { rewrite Ha, app_length, Hla, app_length. simpl. lia. }
  destruct (Nat.leb_spec (S (S i) + length (before_byte ">" mid)) (length (angle body))); [|lia].
  cbn [andb]. f_equal. rewrite Ha.
  replace (S i + 1) with (length ("<"%char :: pre ++ ["~"%char])) by lia.
  rewrite drop_app, Hla.
  replace (S (S i) + length (before_byte ">" mid) - S (S i)) with (length (before_byte ">" mid)) by lia.
  rewrite take_app_le by lia. unfold before_byte. destruct (index_byte ">" mid) as [k|] eqn:Ek.
  - apply index_byte_Some in Ek as (_ & _ & Hk). by rewrite take_length_le by lia.
  - by rewrite firstn_all.
Qed.

Lemma regexp_slice_bad body :
  "~"%char ∈ body -> ">"%char ∈ before_byte "~" body ->
  exists i j, index_byte "~" (angle body) = Some i /\ index_byte ">" (angle body) = Some j /\ j < i.
Proof.
  intros Hin Hgt. rewrite index_byte_angle by done. unfold before_byte in Hgt.
  destruct (index_byte "~" body) as [i|] eqn:E; [|apply index_byte_None in E; done].
  apply index_byte_Some in E as (Hb & Hn & Hi). exists (S i).
  assert (Hlt : exists k, index_byte ">" (take i body) = Some k /\ k < i).
  { destruct (index_byte ">" (take i body)) as [k|] eqn:Ek; [|apply index_byte_None in Ek; done].
    exists k. split; [done|]. apply index_byte_Some in Ek as (_ & _ & Hk). rewrite take_length in Hk. lia. }
  destruct Hlt as (k & Hk & Hlt). exists (S k). split; [done|]. split; [|lia].
  unfold angle. cbn [index_byte]. destruct (Ascii.eqb_spec "<" ">"); [done|].
  rewrite index_byte_app. rewrite Hb, index_byte_app, Hk. done.
Qed.

Lemma names_length name : 1 <= length (names name).
Proof.
  unfold names. rewrite map_length. pose proof (split_byte_nonempty "," name).
  destruct (split_byte "," name); [done|simpl; lia].
Qed.

Definition group_ok (body re : gostr) (want : nat) : Prop :=
  "("%char ∉ body /\ ")"%char ∉ body \/ count_byte "(" re = want /\ count_byte ")" re = want.

Lemma partternRegexp_angle body want r :
  "~"%char ∈ body -> 1 <= want ->
  partternRegexp (angle body) want = Ok (Some r) <->
  ">"%char ∉ before_byte "~" body /\ r = trim_space (before_byte ">" (after_byte "~" body)) /\
  group_ok body r want.
Proof.
  intros Hin Hw. unfold partternRegexp.
  destruct (Nat.eqb_spec want 0); [lia|].
  destruct (decide (">"%char ∈ before_byte "~" body)) as [Hgt|Hgt].
  - destruct (regexp_slice_bad body Hin Hgt) as (i & j & -> & -> & Hlt).
    assert (slice (angle body) (i + 1) j = Panic (L "runtime error: slice bounds out of range")) as ->.
    { unfold slice. destruct (Nat.leb_spec (i + 1) j); [lia|]. done. }
    simpl. split; [discriminate|]. by intros [? _].
  - destruct (regexp_slice body Hin Hgt) as (i & j & -> & -> & ->). cbn [rbind].
    set (re := trim_space (before_byte ">" (after_byte "~" body))).
    assert (Hca : contains_any (L "()") (angle body) = true <-> "("%char ∈ body \/ ")"%char ∈ body).
    { rewrite contains_any_true. unfold angle. split.
      - intros (c & Hc & Hc'). change (L "()") with ["("%char; ")"%char] in Hc. set_solver.
      - intros [?|?]; [exists "("%char|exists ")"%char]; (split; [change (L "()") with ["("%char; ")"%char]; set_solver|set_solver]). }
    unfold group_ok. destruct (contains_any (L "()") (angle body)) eqn:Ec.
    + destruct (Nat.eqb_spec (count_byte "(" re) want) as [E1|E1]; cbn [andb negb].
      * destruct (Nat.eqb_spec (count_byte "(" re) (count_byte ")" re)) as [E2|E2]; cbn [negb].
        -- split; [intros Hr; inversion Hr; subst r|by intros (_ & -> & _)].
           split_and!; [done|done|]. right. lia.
        -- split; [discriminate|]. intros (_ & -> & [[? ?]|[? ?]]); [|lia].
           exfalso. destruct (proj1 Hca eq_refl); done.
      * split; [discriminate|]. intros (_ & -> & [[? ?]|[? ?]]); [|lia].
        exfalso. destruct (proj1 Hca eq_refl); done.
    + cbn [andb]. split; [intros Hr; inversion Hr; subst r|by intros (_ & -> & _)].
      split_and!; [done|done|]. left.
      split; intros Hx; (assert (false = true) by (apply Hca; tauto)); done.
Qed.

(** *** analyzePattern *)
Section Analyze.
Variable re_ok : gostr -> bool.

Lemma starts_with_prefix c s : has_prefix [c] s = true <-> starts_with c s.
Proof. rewrite has_prefix_spec. done. Qed.
Lemma starts_with_prefix_no c s : has_prefix [c] s = false <-> ~ starts_with c s.
Proof. rewrite <- starts_with_prefix. destruct (has_prefix [c] s); split; congruence. Qed.

Lemma analyze_angle body p :
  analyzePattern re_ok (angle body) = Ok p <->
  let name := trim_space (name_part body) in
  (exists nm, name = "*"%char :: nm /\ p = mkPat PMatchAll (angle body) nm [] None) \/
  (~ starts_with "*" name /\ "~"%char ∉ body /\ p = mkPat PHolder (angle body) name (names name) None) \/
  (~ starts_with "*" name /\ "~"%char ∈ body /\
   exists re, ">"%char ∉ before_byte "~" body /\
     re = trim_space (before_byte ">" (after_byte "~" body)) /\
     group_ok body re (length (names name)) /\ re_ok re = true /\
     p = mkPat PRegexp (angle body) name (names name) (Some re)).
Proof.
  unfold analyzePattern. rewrite trim_space_angle, seqb_refl. cbn [negb].
  rewrite getparsed_angle. cbn [rbind]. set (name := trim_space (name_part body)). cbv zeta.
  change (L "*") with ["*"%char].
  destruct (has_prefix ["*"%char] name) eqn:Es.
  - apply starts_with_prefix in Es as (nm & Hnm). rewrite Hnm.
    change ("*"%char :: nm) with (["*"%char] ++ nm) at 1. rewrite trim_prefix_app.
    split.
    + intros Hp. inversion Hp; subst. left. by exists nm.
    + intros [(nm' & Hn & ->)|[[Hn _]|[Hn _]]].
      * by inversion Hn.
      * exfalso. apply Hn. by exists nm.
      * exfalso. apply Hn. by exists nm.
  - apply starts_with_prefix_no in Es.
    assert (contains_byte "<" (angle body) = true) as -> by done.
    rewrite contains_byte_angle by done.
    destruct (contains_byte "~" body) eqn:Et.
    + apply contains_byte_true in Et. unfold getWildcards. fold (names name).
      pose proof (names_length name) as Hw. split.
      * intros Hp. apply rbind_ok in Hp as (r & Hr & Hp). destruct r as [re|]; [|discriminate].
        apply partternRegexp_angle in Hr as (H1 & H2 & H3); [|done|done].
        destruct (re_ok re) eqn:Er; [|discriminate]. inversion Hp; subst p.
        right. right. split_and!; [done|done|]. exists re. done.
      * intros [(nm & Hn & _)|[(_ & Hn & _)|(_ & _ & re & H1 & H2 & H3 & H4 & ->)]].
        -- exfalso. apply Es. by exists nm.
        -- done.
        -- rewrite (proj2 (partternRegexp_angle body _ re Et Hw)) by done. simpl. by rewrite H4.
    + apply contains_byte_false in Et. split.
      * intros Hp. inversion Hp; subst. right. left. done.
      * intros [(nm & Hn & _)|[(_ & Hn & ->)|(_ & Hn & _)]]; [|done|done].
        exfalso. apply Es. by exists nm.
Qed.

Lemma analyze_grammar s p : analyzePattern re_ok s = Ok p <-> seg_grammar re_ok s p.
Proof.
  split.
  - intros Ha. pose proof Ha as Ha0. unfold analyzePattern in Ha.
    destruct (seqb_spec s (trim_space s)) as [Htrim|]; [|discriminate]. cbn [negb] in Ha.
    apply rbind_ok in Ha as (parsed & Hp & Ha). unfold getparsedPattern in Hp.
    change (L "*") with ["*"%char] in *.
    destruct (has_prefix ["*"%char] s) eqn:Es.
    + inversion Hp; subst parsed. rewrite Es in Ha. inversion Ha; subst p.
      apply starts_with_prefix in Es as (r & ->).
      change ("*"%char :: r) with (["*"%char] ++ r). rewrite trim_prefix_app. by apply g_star.
    + destruct (contains_any (L "<>") s) eqn:Ec; cbn [negb] in Hp.
      * destruct (index_byte "<" s) as [[|i]|] eqn:E1; [|discriminate|discriminate].
        destruct (last_index_byte ">" s) as [e|] eqn:E2; [|discriminate].
        destruct (Nat.eqb_spec e (length s - 1)) as [->|]; [|discriminate]. clear Hp Ha.
        destruct (angle_shape s E1 E2) as (body & ->).
        apply analyze_angle in Ha0 as [(nm & Hn & ->)|[(H1 & H2 & ->)|(H1 & H2 & re & H3 & H4 & H5 & H6 & ->)]].
        -- by apply g_named_star.
        -- by apply g_holder.
        -- by apply g_regexp.
      * inversion Hp; subst parsed. rewrite Es in Ha.
        assert (Hno : "<"%char ∉ s /\ ">"%char ∉ s).
        { split; intros Hin; (assert (contains_any (L "<>") s = true); [|congruence]);
          apply contains_any_true; eexists; (split; [|exact Hin]);
          change (L "<>") with ["<"%char; ">"%char]; set_solver. }
        rewrite (proj2 (contains_byte_false "<" s) (proj1 Hno)) in Ha. inversion Ha; subst p.
        apply g_static; [done|by destruct Hno|by destruct Hno|by apply starts_with_prefix_no].
  - intros Hg. destruct Hg as [s H1 H2 H3 H4|s H1|body nm H1|body name H1 H2 H3
                              |body name re H1 H2 H3 H4 H5 H6 H7].
    + unfold analyzePattern. rewrite H1, seqb_refl. cbn [negb]. unfold getparsedPattern.
      change (L "*") with ["*"%char]. apply starts_with_prefix_no in H4 as H4'. rewrite H4'.
      assert (contains_any (L "<>") s = false) as ->.
      { destruct (contains_any (L "<>") s) eqn:E; [|done].
        apply contains_any_true in E as (c & Hc & Hc').
        change (L "<>") with ["<"%char; ">"%char] in Hc. set_solver. }
      cbn [negb rbind]. rewrite H4'.
      by rewrite (proj2 (contains_byte_false "<" s) H2).
    + unfold analyzePattern. rewrite H1, seqb_refl. cbn [negb]. unfold getparsedPattern.
      change (L "*") with ["*"%char].
      assert (has_prefix ["*"%char] ("*"%char :: s) = true) as -> by (apply (has_prefix_app ["*"%char])).
      cbn [rbind]. assert (has_prefix ["*"%char] ("*"%char :: s) = true) as -> by (apply (has_prefix_app ["*"%char])).
      do 2 f_equal.
    + apply analyze_angle. left. by exists nm.
    + apply analyze_angle. right. left. subst name. done.
    + apply analyze_angle. right. right. subst name. split_and!; [done|done|]. exists re. done.
Qed.
End Analyze.
