(** Facts about the getters. *)
From Verif Require Import Base GoStr GoStrFacts Strconv UtilSpec StrconvFacts Tree Header Router Ctx Util Getters GetterSpec.

(** ** Trimming *)
Lemma space1_rune a : is_space1 a = true <-> [a] ∈ space_runes.
Proof.
  assert (eqb (is_space1 a) (bool_decide ([a] ∈ space_runes)) = true) as H.
  { destruct a as [[] [] [] [] [] [] [] []]; vm_compute; reflexivity. }
  apply eqb_prop in H. rewrite H. apply bool_decide_eq_true.
Qed.
Lemma byte_eq a n : (n < 256)%N -> byte_of a = n <-> a = ascii_of_N n.
Proof.
  unfold byte_of. intros Hn. split; [intros <-; symmetry; apply ascii_N_embedding|].
  intros ->. by apply N_ascii_embedding.
Qed.
Lemma space2_rune a b : is_space2 a b = true <-> [a; b] ∈ space_runes.
Proof.
  unfold is_space2. rewrite andb_true_iff, orb_true_iff, !N.eqb_eq, !byte_eq by lia. split.
  - intros [-> [-> | ->]]; apply (bool_decide_eq_true _); vm_compute; reflexivity.
  - unfold space_runes, bytes. cbn [map]. rewrite !elem_of_cons, elem_of_nil. intros H.
    repeat (destruct H as [H|H]; [try discriminate H; injection H as -> ->; tauto|]). done.
Qed.
Lemma byte_between a lo n : (N.of_nat (lo + n) <= 256)%N ->
  (N.of_nat lo <= byte_of a)%N /\ (byte_of a < N.of_nat (lo + n))%N <-> a ∈ map ascii_of_N (map N.of_nat (seq lo n)).
Proof.
  intros Hb. split.
  - intros [H1 H2]. rewrite map_map. apply elem_of_list_fmap. exists (N.to_nat (byte_of a)).
    unfold byte_of in *. rewrite N2Nat.id, ascii_N_embedding. split; [done|]. apply elem_of_seq. lia.
  - rewrite map_map. intros H. apply elem_of_list_fmap in H as (k & -> & Hk). apply elem_of_seq in Hk.
    unfold byte_of. rewrite N_ascii_embedding by lia. lia.
Qed.
Lemma space3_rune a b c : is_space3 a b c = true <-> [a; b; c] ∈ space_runes.
Proof.
  unfold is_space3. rewrite !orb_true_iff, !andb_true_iff, !orb_true_iff, !andb_true_iff, !N.eqb_eq, !N.leb_le.
  assert ((128 <= byte_of c /\ byte_of c <= 138)%N <-> c ∈ map ascii_of_N (map N.of_nat (seq 128 11))) as Hc.
  { rewrite <- byte_between by (cbn; lia). change (N.of_nat 128) with 128%N. change (N.of_nat (128 + 11)) with 139%N. lia. }
  rewrite Hc, !byte_eq by lia. clear Hc.
  cbn [seq map]. rewrite !elem_of_cons, elem_of_nil.
  unfold space_runes, bytes. cbn [map]. split.
  - intros H. rewrite !elem_of_cons.
    destruct H as [[[[[-> ->] ->]|[[-> ->] [[[H|H]|H]|H]]]|[[-> ->] ->]]|[[-> ->] ->]]; try subst c; try tauto.
    repeat (destruct H as [->|H]; [tauto|]). done.
  - rewrite !elem_of_cons, elem_of_nil. intros H.
    repeat (destruct H as [H|H]; [try discriminate H; injection H as -> -> ->; tauto|]). done.
Qed.

(** every space rune has one, two or three bytes *)
Lemma rune_shape x : x ∈ space_runes ->
  (exists a, x = [a] /\ is_space1 a = true) \/ (exists a b, x = [a; b] /\ is_space2 a b = true) \/
  (exists a b c, x = [a; b; c] /\ is_space3 a b c = true).
Proof.
  intros H. assert (match x with [a] => True | [a; b] => True | [a; b; c] => True | _ => False end) as Hs.
  { unfold space_runes, bytes in H. cbn [map] in H. rewrite !elem_of_cons, elem_of_nil in H.
    repeat (destruct H as [->|H]; [exact I|]). done. }
  destruct x as [|a [|b [|c [|]]]]; try done.
  - left. exists a. split; [done|]. by apply space1_rune.
  - right. left. exists a, b. split; [done|]. by apply space2_rune.
  - right. right. exists a, b, c. split; [done|]. by apply space3_rune.
Qed.
Definition no_space_prefix (t : gostr) : Prop := forall x t', x ∈ space_runes -> t <> x ++ t'.
Lemma trim_left_spec s : exists l, s = concat l ++ trim_left_space s /\ Forall (fun x => x ∈ space_runes) l /\
  no_space_prefix (trim_left_space s).
Proof.
  remember (length s) as n eqn:En. assert (length s <= n) as Hle by lia. clear En.
  revert s Hle. induction n as [|n IH]; intros s Hle.
  { destruct s; [|cbn in Hle; lia]. exists []. split; [done|]. split; [constructor|].
    intros x t' Hx E. destruct (rune_shape x Hx) as [(a & -> & _)|[(a & b & -> & _)|(a & b & c & -> & _)]]; discriminate. }
  assert (forall s', no_space_prefix s' -> exists l, s' = concat l ++ s' /\ Forall (fun x => x ∈ space_runes) l /\ no_space_prefix s') as Hstop.
  { intros s' H'. exists []. split; [done|]. split; [constructor|done]. }
  destruct s as [|a s1]; [apply (IH []); cbn; lia|]. cbn [trim_left_space].
  destruct (is_space1 a) eqn:E1.
  { destruct (IH s1) as (l & H1 & H2 & H3); [cbn in Hle; lia|]. exists ([a] :: l). cbn [concat app].
    rewrite <- H1. split; [done|]. split; [|done]. constructor; [by apply space1_rune|done]. }
  destruct s1 as [|b s2].
  { apply Hstop. intros x t' Hx E. destruct (rune_shape x Hx) as [(a' & -> & Ha)|[(a' & b & -> & _)|(a' & b & c & -> & _)]];
      cbn in E; try discriminate. injection E as -> _. congruence. }
  destruct (is_space2 a b) eqn:E2.
  { destruct (IH s2) as (l & H1 & H2 & H3); [cbn in Hle; lia|]. exists ([a; b] :: l). cbn [concat app].
    rewrite <- H1. split; [done|]. split; [|done]. constructor; [by apply space2_rune|done]. }
  destruct s2 as [|c s3].
  { apply Hstop. intros x t' Hx E. destruct (rune_shape x Hx) as [(a' & -> & Ha)|[(a' & b' & -> & Ha)|(a' & b' & c & -> & _)]];
      cbn in E; try discriminate; injection E as; congruence. }
  destruct (is_space3 a b c) eqn:E3.
  { destruct (IH s3) as (l & H1 & H2 & H3); [cbn in Hle; lia|]. exists ([a; b; c] :: l). cbn [concat app].
    rewrite <- H1. split; [done|]. split; [|done]. constructor; [by apply space3_rune|done]. }
  apply Hstop. intros x t' Hx E. destruct (rune_shape x Hx) as [(a' & -> & Ha)|[(a' & b' & -> & Ha)|(a' & b' & c' & -> & Ha)]];
    cbn in E; injection E as; congruence.
Qed.
Definition no_space_suffix (t : gostr) : Prop := forall x t', x ∈ space_runes -> t <> t' ++ x.
Lemma trim_left_rev_spec s : exists l, s = concat l ++ trim_left_space_rev s /\ Forall (fun x => rev x ∈ space_runes) l /\
  no_space_suffix (rev (trim_left_space_rev s)).
Proof.
  remember (length s) as n eqn:En. assert (length s <= n) as Hle by lia. clear En.
  assert (forall x t t' : gostr, rev t = t' ++ x -> t = rev x ++ rev t') as Hrev.
  { intros x t t' E. rewrite <- (rev_involutive t), E. by rewrite rev_app_distr. }
  revert s Hle. induction n as [|n IH]; intros s Hle.
  { destruct s; [|cbn in Hle; lia]. exists []. split; [done|]. split; [constructor|].
    intros x t' Hx E. apply Hrev in E.
    destruct (rune_shape x Hx) as [(a & -> & _)|[(a & b & -> & _)|(a & b & c & -> & _)]]; discriminate. }
  assert (forall s', no_space_suffix (rev s') -> exists l, s' = concat l ++ s' /\ Forall (fun x => rev x ∈ space_runes) l /\ no_space_suffix (rev s')) as Hstop.
  { intros s' H'. exists []. split; [done|]. split; [constructor|done]. }
  destruct s as [|a s1]; [apply (IH []); cbn; lia|]. cbn [trim_left_space_rev].
  destruct (is_space1 a) eqn:E1.
  { destruct (IH s1) as (l & H1 & H2 & H3); [cbn in Hle; lia|]. exists ([a] :: l). cbn [concat app].
    rewrite <- H1. split; [done|]. split; [|done]. constructor; [by apply space1_rune|done]. }
  destruct s1 as [|b s2].
  { apply Hstop. intros x t' Hx E. apply Hrev in E. destruct (rune_shape x Hx) as [(a' & -> & Ha)|[(a' & b & -> & _)|(a' & b & c & -> & _)]];
      cbn in E; try discriminate. injection E as -> _. congruence. }
  destruct (is_space2 b a) eqn:E2.
  { destruct (IH s2) as (l & H1 & H2 & H3); [cbn in Hle; lia|]. exists ([a; b] :: l). cbn [concat app].
    rewrite <- H1. split; [done|]. split; [|done]. constructor; [by apply space2_rune|done]. }
  destruct s2 as [|c s3].
  { apply Hstop. intros x t' Hx E. apply Hrev in E. destruct (rune_shape x Hx) as [(a' & -> & Ha)|[(a' & b' & -> & Ha)|(a' & b' & c & -> & _)]];
      cbn in E; try discriminate; injection E as; congruence. }
  destruct (is_space3 c b a) eqn:E3.
  { destruct (IH s3) as (l & H1 & H2 & H3); [cbn in Hle; lia|]. exists ([a; b; c] :: l). cbn [concat app].
    rewrite <- H1. split; [done|]. split; [|done]. constructor; [by apply space3_rune|done]. }
  apply Hstop. intros x t' Hx E. apply Hrev in E. destruct (rune_shape x Hx) as [(a' & -> & Ha)|[(a' & b' & -> & Ha)|(a' & b' & c' & -> & Ha)]];
    cbn in E; injection E as; congruence.
Qed.
Lemma concat_rev (l : list gostr) : rev (concat l) = concat (rev (map (@rev ascii) l)).
Proof.
  induction l as [|x l IH]; [done|]. cbn [concat map rev]. rewrite rev_app_distr, IH, concat_app. cbn. by rewrite app_nil_r.
Qed.
(** strings.TrimSpace removes exactly the white space at both ends *)
Lemma trim_space_trimmed s : trimmed s (trim_space s).
Proof.
  unfold trim_space, trim_right_space.
  destruct (trim_left_spec s) as (l & H1 & H2 & H3). set (s' := trim_left_space s) in *. clearbody s'.
  destruct (trim_left_rev_spec (rev s')) as (r & H4 & H5 & H6). set (t := trim_left_space_rev (rev s')) in *. clearbody t.
  assert (s' = rev t ++ concat (rev (map (@rev ascii) r))) as Es.
  { rewrite <- (rev_involutive s'), H4, rev_app_distr, concat_rev. done. }
  exists l, (rev (map (@rev ascii) r)). rewrite <- Es. split; [done|]. split; [done|]. split.
  - apply Forall_rev. apply Forall_map. exact H5.
  - split; [|done]. intros x t' Hx E. apply (H3 x (t' ++ concat (rev (map (@rev ascii) r))) Hx).
    rewrite Es, E, <- app_assoc. done.
Qed.

(** ** Query getters *)
Lemma index_byte_app c p r : c ∉ p -> index_byte c (p ++ c :: r) = Some (length p).
Proof.
  induction p as [|a p IH]; intros H; cbn.
  - destruct (Ascii.eqb_spec c c); done.
  - destruct (Ascii.eqb_spec a c) as [->|]; [exfalso; apply H; left|]. rewrite IH by set_solver. done.
Qed.
Lemma map_key_spec key n x : map_key key n = Some x <-> in_map_more key x n.
Proof.
  unfold map_key, in_map_more. change (L "[") with ["["%char]. change (L "]") with ["]"%char]. split.
  - destruct (index_byte "[" n) as [i|] eqn:Ei; [|done]. apply index_byte_Some in Ei as (Hn & Hno & Hlen).
    destruct ((1 <=? i) && _) eqn:E1; [|done]. apply andb_prop in E1 as [E1 E2]. apply Nat.leb_le in E1. apply seqb_true in E2.
    destruct (index_byte "]" (drop (S i) n)) as [j|] eqn:Ej; [|done]. apply index_byte_Some in Ej as (Hnj & Hnoj & Hlj).
    destruct (1 <=? j) eqn:E3; [|done]. apply Nat.leb_le in E3. intros H. injection H as <-. subst key.
    split; [|split; [done|split; [|split; [done|]]]].
    + intros E. apply (f_equal length) in E. rewrite take_length in E. cbn in E. lia.
    + intros E. apply (f_equal length) in E. rewrite take_length in E. cbn in E. lia.
    + exists (drop (S j) (drop (S i) n)). rewrite Hn at 1. f_equal. cbn [app]. f_equal. exact Hnj.
  - intros (H1 & H2 & H3 & H4 & r & ->). cbn [app]. rewrite index_byte_app by done. rewrite take_app, seqb_refl.
    assert (1 <= length key) by (destruct key; [done|cbn; lia]). assert (1 <= length x) by (destruct x; [done|cbn; lia]).
    assert ((1 <=? length key) = true) as -> by (apply Nat.leb_le; done). cbn [andb].
    replace (drop (S (length key)) (key ++ "["%char :: x ++ "]"%char :: r)) with (x ++ "]"%char :: r).
    2: { change ("["%char :: x ++ "]"%char :: r) with (["["%char] ++ x ++ "]"%char :: r). rewrite app_assoc.
         rewrite drop_app_ge by (rewrite app_length; cbn; lia). rewrite app_length. cbn [length].
         replace (S (length key) - (length key + 1)) with 0 by lia. done. }
    rewrite index_byte_app by done. assert ((1 <=? length x) = true) as -> by (apply Nat.leb_le; done).
    by rewrite take_app.
Qed.

(** the loop *)
Definition hit (key : gostr) (kv : gostr * list gostr) : option (gostr * gostr) :=
  match map_key key (fst kv), snd kv with Some x, v :: _ => Some (x, trim_space v) | _, _ => None end.
Definition puts (l : list (gostr * gostr)) (d : gmap gostr gostr) : gmap gostr gostr :=
  fold_left (fun d xy => <[fst xy := snd xy]> d) l d.
Lemma map_loop_ok order key d b : (forall k, (k, []) ∉ order) ->
  map_loop order key d b = Ok (puts (omap (hit key) order) d, b || bool_decide (omap (hit key) order <> [])).
Proof.
  revert d b. induction order as [|[k v] order IH]; intros d b Hf.
  - cbn. by rewrite orb_false_r.
  - cbn [map_loop]. assert (hit key (k, v) = match map_key key k, v with Some x, v0 :: _ => Some (x, trim_space v0) | _, _ => None end) as Hh
      by reflexivity.
    change (omap (hit key) ((k, v) :: order)) with
      (match hit key (k, v) with Some y => y :: omap (hit key) order | None => omap (hit key) order end). rewrite Hh. clear Hh.
    assert (forall k0, (k0, []) ∉ order) as Hf' by (intros k0 Hin; apply (Hf k0); by right).
    destruct (map_key key k) as [x|]; [|by apply IH]. destruct v as [|v0 v]; [exfalso; apply (Hf k); left|].
    rewrite IH by done. cbn [puts fold_left fst snd]. rewrite orb_true_l. f_equal. f_equal.
    rewrite bool_decide_eq_true_2 by done. by rewrite orb_true_r.
Qed.
Lemma puts_lookup l d x y : puts l d !! x = Some y -> (x, y) ∈ l \/ d !! x = Some y.
Proof.
  revert d. induction l as [|[a b] l IH]; intros d H; [by right|]. cbn [puts fold_left fst snd] in H.
  apply (IH (<[a := b]> d)) in H as [H|H]; [left; by right|]. apply lookup_insert_Some in H as [[-> ->]|[_ H]]; [left; left|by right].
Qed.
Lemma puts_keep l d x y : d !! x = Some y -> exists y', puts l d !! x = Some y'.
Proof.
  revert d y. induction l as [|[a b] l IH]; intros d y H; [by exists y|]. cbn [puts fold_left fst snd].
  destruct (decide (a = x)) as [->|Hne].
  - apply (IH (<[x := b]> d) b). apply lookup_insert.
  - apply (IH (<[a := b]> d) y). by rewrite lookup_insert_ne.
Qed.
Lemma puts_has l d x y : (x, y) ∈ l -> exists y', puts l d !! x = Some y'.
Proof.
  revert d. induction l as [|[a b] l IH]; intros d H; [by apply elem_of_nil in H|]. cbn [puts fold_left fst snd].
  apply elem_of_cons in H as [H|H].
  - injection H as <- <-. apply (puts_keep l _ x y). apply lookup_insert.
  - by apply IH.
Qed.
Lemma hit_iff m f order key x y : f = Some m -> visits f order -> filled m ->
  (x, y) ∈ omap (hit key) order <-> exists n v vs, m !! n = Some (v :: vs) /\ in_map_more key x n /\ y = trim_space v.
Proof.
  intros -> Hv Hf. rewrite elem_of_list_omap. split.
  - intros ([n vs] & Hin & Hh). rewrite Hv in Hin. apply elem_of_map_to_list in Hin.
    unfold hit in Hh. cbn [fst snd] in Hh. destruct (map_key key n) as [x'|] eqn:E; [|done].
    destruct vs as [|v vs]; [done|]. injection Hh as -> <-. apply map_key_spec in E. exists n, v, vs. done.
  - intros (n & v & vs & Hn & Hm & ->). exists (n, v :: vs). split; [rewrite Hv; by apply elem_of_map_to_list|].
    unfold hit. cbn [fst snd]. apply map_key_spec in Hm as ->. done.
Qed.
Lemma visits_filled m f order : f = Some m -> visits f order -> filled m -> forall k, (k, []) ∉ order.
Proof. intros -> Hv Hf k Hin. rewrite Hv in Hin. apply elem_of_map_to_list in Hin. by apply (Hf k). Qed.

Definition entry (m : gmap gostr (list gostr)) (key x v : gostr) : Prop :=
  exists n vs, m !! n = Some (v :: vs) /\ in_map_more key x n.
Lemma query_map_spec m order key : visits (Some m) order -> filled m ->
  exists d, QueryMap order key = Ok d /\
    (forall x y, d !! x = Some y -> exists v, entry m key x v /\ y = trim_space v) /\
    (forall x v, entry m key x v -> exists y, d !! x = Some y).
Proof.
  intros Hv Hf. unfold QueryMap. rewrite map_loop_ok by (by eapply visits_filled). cbn [rbind].
  eexists. split; [reflexivity|]. split.
  - intros x y H. apply puts_lookup in H as [H|H]; [|by rewrite lookup_empty in H].
    apply (hit_iff m _ order key x y eq_refl Hv Hf) in H as (n & v & vs & H1 & H2 & H3). exists v. split; [|done]. by exists n, vs.
  - intros x v (n & vs & H1 & H2). apply (puts_has _ _ x (trim_space v)).
    apply (hit_iff m _ order key x _ eq_refl Hv Hf). by exists n, v, vs.
Qed.
Lemma default_query_map_spec m order key d0 : visits (Some m) order -> filled m ->
  ((exists x v, entry m key x v) -> DefaultQueryMap order key d0 = QueryMap order key) /\
  ((forall x v, ~ entry m key x v) -> DefaultQueryMap order key d0 = Ok d0).
Proof.
  intros Hv Hf. unfold DefaultQueryMap, QueryMap. rewrite map_loop_ok by (by eapply visits_filled). cbn [rbind orb].
  split.
  - intros (x & v & n & vs & H1 & H2).
    assert ((x, trim_space v) ∈ omap (hit key) order) as Hin by (apply (hit_iff m _ order key x _ eq_refl Hv Hf); by exists n, v, vs).
    rewrite bool_decide_eq_true_2; [done|]. intros E. rewrite E in Hin. by apply elem_of_nil in Hin.
  - intros H. rewrite bool_decide_eq_false_2; [done|]. intros E. apply E.
    destruct (omap (hit key) order) as [|[x y] l] eqn:El; [done|]. exfalso.
    assert ((x, y) ∈ omap (hit key) order) as Hin by (rewrite El; left).
    apply (hit_iff m _ order key x y eq_refl Hv Hf) in Hin as (n & v & vs & H1 & H2 & H3).
    apply (H x v). by exists n, vs.
Qed.
(** the entry visited last wins *)
Lemma puts_app l l' d : puts (l ++ l') d = puts l' (puts l d).
Proof. unfold puts. apply fold_left_app. Qed.
Lemma query_map_last m key x v n vs : filled m -> m !! n = Some (v :: vs) -> in_map_more key x n ->
  exists order d, visits (Some m) order /\ QueryMap order key = Ok d /\ d !! x = Some (trim_space v).
Proof.
  intros Hf Hn Hm. exists (map_to_list (delete n m) ++ [(n, v :: vs)]).
  assert (visits (Some m) (map_to_list (delete n m) ++ [(n, v :: vs)])) as Hv.
  { unfold visits. rewrite Permutation_app_comm. cbn [app]. symmetry. rewrite <- (insert_delete m n (v :: vs)) at 1 by done.
    apply map_to_list_insert. apply lookup_delete. }
  unfold QueryMap. rewrite map_loop_ok by (by eapply visits_filled). cbn [rbind]. eexists. split; [exact Hv|]. split; [reflexivity|].
  rewrite omap_app, puts_app. apply map_key_spec in Hm.
  change (omap (hit key) [(n, v :: vs)]) with (match hit key (n, v :: vs) with Some y => [y] | None => [] end).
  unfold hit. cbn [fst snd]. rewrite Hm. cbn. apply lookup_insert.
Qed.
(** one result for all orders, exactly if no two names give an entry different values *)
Lemma query_map_same m key : filled m ->
  (forall o1 o2, visits (Some m) o1 -> visits (Some m) o2 -> QueryMap o1 key = QueryMap o2 key) <->
  (forall x v v', entry m key x v -> entry m key x v' -> trim_space v = trim_space v').
Proof.
  intros Hf. split.
  - intros H x v v' (n & vs & Hn & Hm) (n' & vs' & Hn' & Hm').
    destruct (query_map_last m key x v n vs Hf Hn Hm) as (o & d & Ho & Hd & E).
    destruct (query_map_last m key x v' n' vs' Hf Hn' Hm') as (o' & d' & Ho' & Hd' & E').
    rewrite (H o o' Ho Ho') in Hd. rewrite Hd in Hd'. injection Hd' as <-. rewrite E in E'. by injection E'.
  - intros H o1 o2 H1 H2. destruct (query_map_spec m o1 key H1 Hf) as (d1 & -> & A1 & B1).
    destruct (query_map_spec m o2 key H2 Hf) as (d2 & -> & A2 & B2). f_equal. apply map_eq. intros x.
    destruct (d1 !! x) as [y|] eqn:E.
    + destruct (A1 x y E) as (v & He & ->). destruct (B2 x v He) as (y' & E'). destruct (A2 x y' E') as (v' & He' & ->).
      rewrite E'. f_equal. by apply (H x).
    + destruct (d2 !! x) as [y|] eqn:E2; [|done]. destruct (A2 x y E2) as (v & He & _). destruct (B1 x v He) as (y' & E'). congruence.
Qed.
(** names that all end with the bracket: no collisions *)
Definition tidy (m : gmap gostr (list gostr)) (key : gostr) : Prop :=
  forall n x, is_Some (m !! n) -> in_map_more key x n -> in_map key x n.
Lemma query_map_tidy m order key : visits (Some m) order -> filled m -> tidy m key -> key <> [] -> "["%char ∉ key ->
  exists d, QueryMap order key = Ok d /\ forall x y, d !! x = Some y <->
    x <> [] /\ "]"%char ∉ x /\ exists v vs, m !! (key ++ L "[" ++ x ++ L "]") = Some (v :: vs) /\ y = trim_space v.
Proof.
  intros Hv Hf Ht Hk1 Hk2. destruct (query_map_spec m order key Hv Hf) as (d & Hd & H1 & H2). exists d. split; [done|].
  assert (forall x y, d !! x = Some y -> x <> [] /\ "]"%char ∉ x /\ exists v vs, m !! (key ++ L "[" ++ x ++ L "]") = Some (v :: vs) /\ y = trim_space v) as Hs.
  { intros x y H. apply H1 in H as (v & (n & vs & Hn & Hm) & ->). pose proof Hm as (_ & _ & Hx & Hx2 & _).
    split; [done|]. split; [done|]. exists v, vs. split; [|done]. rewrite <- Hn. f_equal. symmetry. apply Ht; [by rewrite Hn|done]. }
  intros x y. split; [apply Hs|]. intros (Hx & Hx2 & v & vs & Hn & ->).
  assert (entry m key x v) as He.
  { exists (key ++ L "[" ++ x ++ L "]"), vs. split; [done|]. repeat split; try done. exists []. by rewrite app_nil_r. }
  destruct (H2 x v He) as (y & Hy). pose proof (Hs x y Hy) as (_ & _ & v' & vs' & Hn' & ->).
  rewrite Hn in Hn'. injection Hn' as -> ->. done.
Qed.

(** *** the plain getters *)
Lemma query_some m name v vs : m !! name = Some (v :: vs) ->
  Query (Some m) name = trim_space v /\ (forall d, DefaultQuery (Some m) name d = trim_space v) /\
  QueryArray (Some m) name = Some (map trim_space (v :: vs)) /\
  (forall d, DefaultQueryArray (Some m) name d = Some (map trim_space (v :: vs))).
Proof.
  intros H. unfold Query, DefaultQuery, QueryArray, DefaultQueryArray, queryExist, form_get, form_at. cbn [mbind option_bind].
  rewrite H. done.
Qed.
Lemma query_none f name : f ≫= (.!! name) = None ->
  Query f name = [] /\ (forall d, DefaultQuery f name d = d) /\ QueryArray f name = None /\ (forall d, DefaultQueryArray f name d = d).
Proof.
  intros H. unfold Query, DefaultQuery, QueryArray, DefaultQueryArray, queryExist, form_get, form_at. rewrite H.
  by destruct f.
Qed.
