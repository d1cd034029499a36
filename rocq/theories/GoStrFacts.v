(** Facts about the string functions. *)
From Verif Require Import Base GoStr.

Lemma index_byte_None c s : index_byte c s = None <-> c ∉ s.
Proof.
  induction s as [|a s IH]; simpl.
  - split; [intros _; apply not_elem_of_nil|reflexivity].
  - destruct (Ascii.eqb_spec a c) as [->|Hne].
    + split; [discriminate|]. intros Hn. exfalso. apply Hn. left.
    + destruct (index_byte c s) as [i|].
      * split; [discriminate|]. intros Hn. exfalso.
        assert (c ∉ s) as Hc. { intros Hi. apply Hn. right. exact Hi. }
        apply IH in Hc. discriminate.
      * split; [|reflexivity]. intros _ Hi. apply elem_of_cons in Hi as [->|Hi]; [done|].
        destruct IH as [IH _]. by apply IH.
Qed.

Lemma index_byte_Some c s i :
  index_byte c s = Some i ->
  s = take i s ++ c :: drop (S i) s /\ c ∉ take i s /\ i < length s.
Proof.
  revert i. induction s as [|a s IH]; simpl; intros i Hi; [discriminate|].
  destruct (Ascii.eqb_spec a c) as [->|Hne].
  - inversion Hi; subst i. simpl. rewrite drop_0. split_and!; [done| |lia].
    apply not_elem_of_nil.
  - destruct (index_byte c s) as [j|] eqn:E; [|discriminate].
    inversion Hi; subst i. destruct (IH j eq_refl) as (H1 & H2 & H3). simpl.
    split_and!; [by f_equal| |lia].
    intros Hin. apply elem_of_cons in Hin as [Heq|Hin]; [congruence|contradiction].
Qed.

Lemma split_byte_None c s : index_byte c s = None -> split_byte c s = [s].
Proof.
  induction s as [|a s IH]; simpl; [done|]. intros Hi.
  destruct (Ascii.eqb a c); [discriminate|].
  destruct (index_byte c s); [discriminate|]. by rewrite IH.
Qed.

Lemma split_byte_Some c s i :
  index_byte c s = Some i -> split_byte c s = take i s :: split_byte c (drop (S i) s).
Proof.
  revert i. induction s as [|a s IH]; intros i Hi; [discriminate|].
  cbn [index_byte] in Hi. cbn [split_byte].
  destruct (Ascii.eqb a c).
  - inversion Hi; subst i. simpl. by rewrite drop_0.
  - destruct (index_byte c s) as [j|] eqn:E; [|discriminate].
    inversion Hi; subst i. rewrite (IH j eq_refl). done.
Qed.

Lemma split_byte_nonempty c s : split_byte c s <> [].
Proof.
  destruct s as [|a s]; simpl; [done|]. destruct (Ascii.eqb a c); [done|].
  by destruct (split_byte c s).
Qed.

Lemma split_byte_no_sep c s : Forall (fun x => c ∉ x) (split_byte c s).
Proof.
  induction s as [|a s IH]; simpl.
  - constructor; [apply not_elem_of_nil|constructor].
  - destruct (Ascii.eqb_spec a c) as [->|Hne].
    + constructor; [apply not_elem_of_nil|exact IH].
    + destruct (split_byte c s) as [|x l]; inversion IH as [|? ? Hx Hl]; subst.
      * constructor; [|constructor]. intros Hi. apply elem_of_list_singleton in Hi. congruence.
      * constructor; [|done]. intros Hi. apply elem_of_cons in Hi as [Hi|Hi]; [congruence|done].
Qed.

Lemma join_cons sep x l : l <> [] -> join sep (x :: l) = x ++ sep ++ join sep l.
Proof. destruct l; [done|]. reflexivity. Qed.

Lemma join_split c s : join [c] (split_byte c s) = s.
Proof.
  induction s as [|a s IH]; [done|]. cbn [split_byte].
  pose proof (split_byte_nonempty c s) as Hne.
  destruct (Ascii.eqb_spec a c) as [->|Hn].
  - rewrite join_cons by done. rewrite IH. done.
  - destruct (split_byte c s) as [|x l] eqn:E; [done|].
    destruct l as [|y l].
    + simpl in *. by rewrite IH.
    + rewrite join_cons by done. rewrite join_cons in IH by done.
      rewrite <- IH. done.
Qed.

Lemma split_app c x s : c ∉ x -> split_byte c (x ++ c :: s) = x :: split_byte c s.
Proof.
  induction x as [|a x IH]; simpl; intros Hn.
  - by rewrite Ascii.eqb_refl.
  - apply not_elem_of_cons in Hn as [Hn1 Hn2].
    destruct (Ascii.eqb_spec a c) as [->|Hne]; [congruence|]. by rewrite IH.
Qed.

Lemma split_no_sep c s : c ∉ s -> split_byte c s = [s].
Proof. intros Hn. apply split_byte_None, index_byte_None, Hn. Qed.

Lemma split_join c l :
  l <> [] -> Forall (fun x => c ∉ x) l -> split_byte c (join [c] l) = l.
Proof.
  induction l as [|x l IH]; intros Hne Hf; [done|].
  inversion Hf as [|? ? Hx Hl]; subst.
  destruct l as [|y l].
  - simpl. by apply split_no_sep.
  - rewrite join_cons by done. cbn [app]. change ([c] ++ join [c] (y :: l)) with (c :: join [c] (y :: l)).
    rewrite split_app by done. f_equal. by apply IH.
Qed.

Lemma has_prefix_spec p s : has_prefix p s = true <-> exists r, s = p ++ r.
Proof.
  revert s. induction p as [|a p IH]; intros s; simpl.
  - split; [intros _; by exists s|done].
  - destruct s as [|b s].
    + split; [discriminate|]. intros (r & Hr). discriminate.
    + rewrite andb_true_iff, IH. destruct (Ascii.eqb_spec a b) as [->|Hne].
      * split.
        -- intros (_ & r & ->). by exists r.
        -- intros (r & Hr). inversion Hr; subst. split; [done|]. by exists r.
      * split; [intros (? & _); discriminate|]. intros (r & Hr). inversion Hr. congruence.
Qed.

Lemma has_prefix_app p s : has_prefix p (p ++ s) = true.
Proof. apply has_prefix_spec. by exists s. Qed.

Lemma has_suffix_spec p s : has_suffix p s = true <-> exists r, s = r ++ p.
Proof.
  unfold has_suffix. rewrite has_prefix_spec. split.
  - intros (r & Hr). exists (rev r).
    rewrite <- (rev_involutive s), Hr, rev_app_distr, rev_involutive. done.
  - intros (r & ->). exists (rev r). by rewrite rev_app_distr.
Qed.

Lemma trim_prefix_app p s : trim_prefix p (p ++ s) = s.
Proof. unfold trim_prefix. rewrite has_prefix_app. by rewrite drop_app. Qed.

Lemma trim_prefix_no p s : has_prefix p s = false -> trim_prefix p s = s.
Proof. unfold trim_prefix. by intros ->. Qed.

Lemma trim_suffix_app p s : trim_suffix p (s ++ p) = s.
Proof.
  unfold trim_suffix.
  assert (has_suffix p (s ++ p) = true) as -> by (apply has_suffix_spec; by exists s).
  rewrite app_length. replace (length s + length p - length p) with (length s) by lia.
  by rewrite take_app.
Qed.

Lemma trim_suffix_no p s : has_suffix p s = false -> trim_suffix p s = s.
Proof. unfold trim_suffix. by intros ->. Qed.

Lemma trim_prefix1_cases c s :
  (exists r, s = c :: r /\ trim_prefix [c] s = r) \/
  ((forall r, s <> c :: r) /\ trim_prefix [c] s = s).
Proof.
  destruct s as [|a s].
  - right. split; [done|reflexivity].
  - destruct (Ascii.eqb_spec c a) as [->|Hne].
    + left. exists s. split; [done|]. apply (trim_prefix_app [a] s).
    + right. split; [intros r Hr; inversion Hr; congruence|].
      apply trim_prefix_no. simpl.
      destruct (Ascii.eqb_spec c a); [congruence|done].
Qed.

Lemma trim_suffix1_cases c s :
  (exists r, s = r ++ [c] /\ trim_suffix [c] s = r) \/
  ((forall r, s <> r ++ [c]) /\ trim_suffix [c] s = s).
Proof.
  destruct (has_suffix [c] s) eqn:E.
  - left. apply has_suffix_spec in E as (r & ->). exists r. split; [done|]. apply trim_suffix_app.
  - right. split; [|by apply trim_suffix_no].
    intros r ->. assert (has_suffix [c] (r ++ [c]) = true) as Ht by (apply has_suffix_spec; by exists r).
    congruence.
Qed.

Lemma trim_prefix_length p s : length (trim_prefix p s) <= length s.
Proof. unfold trim_prefix. destruct (has_prefix p s); [|lia]. rewrite drop_length. lia. Qed.

Lemma split_trim_prefix c s :
  split_byte c (trim_prefix [c] s) =
  match split_byte c s with
  | [] :: ((_ :: _) as l) => l
  | l => l
  end.
Proof.
  destruct (trim_prefix1_cases c s) as [(r & -> & Ht)|(Hno & Ht)]; rewrite Ht.
  - simpl. rewrite Ascii.eqb_refl.
    pose proof (split_byte_nonempty c r). by destruct (split_byte c r).
  - destruct s as [|a s]; [done|]. simpl.
    destruct (Ascii.eqb_spec a c) as [->|Hne]; [exfalso; by apply (Hno s)|].
    destruct (split_byte c s) as [|x l]; done.
Qed.

Lemma contains_byte_true c s : contains_byte c s = true <-> c ∈ s.
Proof.
  unfold contains_byte. rewrite existsb_exists. split.
  - intros (x & Hx & He). apply Ascii.eqb_eq in He as ->. by apply elem_of_list_In.
  - intros Hc. exists c. split; [by apply elem_of_list_In|apply Ascii.eqb_refl].
Qed.
Lemma contains_byte_false c s : contains_byte c s = false <-> c ∉ s.
Proof. rewrite <- contains_byte_true. destruct (contains_byte c s); split; congruence. Qed.

Lemma contains_any_true cs s :
  contains_any cs s = true <-> exists c, c ∈ cs /\ c ∈ s.
Proof.
  unfold contains_any. rewrite existsb_exists. split.
  - intros (x & Hx & He). apply existsb_exists in He as (y & Hy & He).
    apply Ascii.eqb_eq in He as ->. exists y. by rewrite !elem_of_list_In.
  - intros (c & H1 & H2). exists c. rewrite <- elem_of_list_In. split; [done|].
    apply existsb_exists. exists c. rewrite <- elem_of_list_In. split; [done|apply Ascii.eqb_refl].
Qed.
