(** Expressions are read as they are written. *)
From Coq Require Import NArith.
From Verif Require Import Base GoStr GoStrFacts NetRegexp RegexpSpec RegexpFacts.
Local Open Scope nat_scope.

Lemma eqb_no a b : a <> b -> Ascii.eqb a b = false.
Proof. intros. by apply Ascii.eqb_neq. Qed.
Lemma is_alnum_iff c : is_alnum c = true <-> letter_or_digit c.
Proof.
  unfold is_alnum, letter_or_digit. cbn [existsb]. rewrite !orb_true_iff, !in_range_iff. cbn [fst snd].
  change (N_of_ascii "0") with 48%N. change (N_of_ascii "9") with 57%N. change (N_of_ascii "A") with 65%N.
  change (N_of_ascii "Z") with 90%N. change (N_of_ascii "a") with 97%N. change (N_of_ascii "z") with 122%N.
  split; [intros [?|[?|[?|?]]]; auto; discriminate|]. intros [?|[?|?]]; auto.
Qed.
Lemma punct_iff c : punct c = true <-> mark c.
Proof.
  unfold punct, mark. rewrite andb_true_iff, negb_true_iff, is_ascii_iff, <- is_alnum_iff.
  destruct (is_alnum c); split; intros [? ?]; split; congruence.
Qed.
Lemma perl_alnum c x : perl c = Some x -> is_alnum c = true.
Proof. destruct c as [[] [] [] [] [] [] [] []]; vm_compute; congruence. Qed.
Lemma perl_mark c : mark c -> perl c = None.
Proof.
  intros H. destruct (perl c) eqn:Hp; [|done]. apply perl_alnum in Hp. apply is_alnum_iff in Hp. by destruct H.
Qed.
Lemma perl_short c neg rs : shorthand c neg rs -> perl c = Some (neg, rs).
Proof. by destruct 1. Qed.

Lemma class_char_ok c t rest : class_char_text c t -> class_char (t ++ rest) = Some (c, rest).
Proof.
  destruct 1 as [c Ha Hc|c Hm]; cbn [app class_char].
  - rewrite eqb_no by (intros ->; apply Hc; vm_compute; by do 2 right; left).
    apply is_ascii_iff in Ha. rewrite Ha. cbn [andb].
    assert (contains_byte c (L "[]") = false) as ->; [|done]. apply contains_byte_false. intros Hin. apply Hc.
    change (L "[]\^-") with (L "[]" ++ L "\^-"). set_solver.
  - apply punct_iff in Hm. by rewrite Ascii.eqb_refl, Hm.
Qed.
(** how a character in a class begins *)
Lemma class_char_head c t : class_char_text c t -> exists a t', t = a :: t' /\ a <> "]"%char /\ a <> "-"%char /\ a <> "^"%char /\
  (forall rest, class_perl (t ++ rest) = None).
Proof.
  destruct 1 as [c Ha Hc|c Hm].
  - exists c, []. assert (forall x, x ∈ L "[]\^-" -> c <> x) as Hx by (intros x H ->; done).
    split_and!; [done|apply Hx; apply (bool_decide_eq_true _); vm_compute; reflexivity..|].
    intros rest. cbn [app class_perl]. destruct rest; [done|].
    rewrite eqb_no; [done|]. apply Hx. apply (bool_decide_eq_true _). vm_compute. reflexivity.
  - exists "\"%char, [c]. split_and!; [done|done..|]. intros rest. cbn. by rewrite perl_mark.
Qed.
Lemma class_text_head rs t rest : class_text rs t -> exists a s, t ++ "]"%char :: rest = a :: s /\ a <> "^"%char /\
  (t <> [] -> a <> "]"%char) /\ (a = "-"%char -> exists s', s = "]"%char :: s').
Proof.
  destruct 1 as [| |c t rs ts Hc _|lo hi t t' rs ts Hc _ _ _|c l rs ts _ _].
  - exists "]"%char, rest. by split_and!.
  - exists "-"%char, ("]"%char :: rest). split_and!; [done|done|done|eauto].
  - apply class_char_head in Hc as (a & t' & -> & ? & ? & ? & _). exists a. eexists. split; [done|]. by split_and!.
  - apply class_char_head in Hc as (a & t2 & -> & ? & ? & ? & _). exists a. eexists. split; [done|]. by split_and!.
  - exists "\"%char. eexists. split; [done|]. by split_and!.
Qed.
Lemma class_range_char c t rs ts rest : class_char_text c t -> class_text rs ts ->
  class_range (t ++ ts ++ "]"%char :: rest) = Some ([(c, c)], ts ++ "]"%char :: rest).
Proof.
  intros Hc Ht. unfold class_range. rewrite (class_char_ok c) by done.
  destruct (class_text_head _ _ rest Ht) as (a & s & -> & _ & _ & Hd).
  destruct s as [|b s]; [done|]. destruct (Ascii.eqb_spec a "-") as [->|]; [|done].
  destruct (Hd eq_refl) as (s' & [= -> ->]). done.
Qed.
Lemma class_range_range lo hi t t' rest : class_char_text lo t -> class_char_text hi t' -> (N_of_ascii lo <= N_of_ascii hi)%N ->
  class_range (t ++ "-"%char :: t' ++ rest) = Some ([(lo, hi)], rest).
Proof.
  intros Hc Hc' Hle. unfold class_range. rewrite (class_char_ok lo) by done.
  pose proof (class_char_ok _ _ rest Hc') as Hok.
  destruct (class_char_head _ _ Hc') as (a & t2 & -> & Ha & _). cbn [app] in *.
  rewrite Ascii.eqb_refl, (eqb_no a) by done. cbn [andb negb]. rewrite Hok. apply N.leb_le in Hle. by rewrite Hle.
Qed.
Lemma class_items_ok rs t : class_text rs t -> forall n rest, length t < n -> class_items n (t ++ "]"%char :: rest) = Some (rs, rest).
Proof.
  induction 1 as [| |c t rs ts Hc Ht IH|lo hi t t' rs ts Hc Hc' Hle Ht IH|c l rs ts Hs Ht IH]; intros n rest Hn.
  - destruct n; [cbn in Hn; lia|]. done.
  - destruct n as [|[|n]]; [cbn in Hn; lia|change (length (L "-")) with 1 in Hn; lia|]. destruct rest; done.
  - rewrite <- app_assoc. destruct (class_char_head _ _ Hc) as (a & t1 & Ht1 & Ha & _ & _ & Hp).
    destruct n as [|n]; [lia|]. rewrite app_length in Hn.
    pose proof (class_range_char _ _ _ _ rest Hc Ht) as Hr. specialize (Hp (ts ++ "]"%char :: rest)).
    rewrite Ht1 in *. cbn [app] in *. cbn [class_items]. rewrite (eqb_no a) by done. rewrite Hp, Hr, IH; [done|]. cbn [length] in Hn. lia.
  - rewrite <- !app_assoc. destruct (class_char_head _ _ Hc) as (a & t1 & Ht1 & Ha & _ & _ & Hp).
    destruct n as [|n]; [lia|]. rewrite !app_length in Hn. cbn [app].
    pose proof (class_range_range _ _ _ _ (ts ++ "]"%char :: rest) Hc Hc' Hle) as Hr. specialize (Hp ("-"%char :: t' ++ ts ++ "]"%char :: rest)).
    rewrite Ht1 in *. cbn [app] in *. cbn [class_items]. rewrite (eqb_no a) by done. rewrite Hp, Hr, IH; [done|]. cbn [length] in Hn. lia.
  - destruct n as [|n]; [lia|]. rewrite app_length in Hn. cbn [length] in Hn. cbn [app class_items].
    change (Ascii.eqb "\" "]") with false. cbn [class_perl]. rewrite Ascii.eqb_refl, (perl_short _ _ _ Hs).
    rewrite IH by lia. done.
Qed.
Lemma p_class_ok rs t rest : t <> [] -> class_text rs t -> p_class (t ++ "]"%char :: rest) = Some (RSet false rs, rest).
Proof.
  intros Hne Ht. pose proof (class_items_ok _ _ Ht (S (length (t ++ "]"%char :: rest))) rest) as Hi.
  rewrite app_length in Hi at 1. specialize (Hi ltac:(lia)). unfold p_class.
  destruct (class_text_head _ _ rest Ht) as (a & s & Heq & H1 & H2 & _). rewrite Heq in *.
  change (has_prefix (L "^") (a :: s)) with (Ascii.eqb "^" a && true). rewrite (eqb_no "^") by congruence. cbn [andb]. cbv iota beta.
  assert (has_prefix (L "]") (a :: s) = false) as -> by (apply andb_false_iff; left; apply eqb_no; specialize (H2 Hne); congruence).
  by rewrite Hi.
Qed.
Lemma p_class_not rs t rest : t <> [] -> class_text rs t -> p_class ("^"%char :: t ++ "]"%char :: rest) = Some (RSet true rs, rest).
Proof.
  intros Hne Ht. pose proof (class_items_ok _ _ Ht (S (length (t ++ "]"%char :: rest))) rest) as Hi.
  rewrite app_length in Hi at 1. specialize (Hi ltac:(lia)). unfold p_class.
  change (has_prefix (L "^") ("^"%char :: t ++ "]"%char :: rest)) with true. cbn [drop]. cbv iota beta.
  destruct (class_text_head _ _ rest Ht) as (a & s & Heq & H1 & H2 & _). rewrite Heq in *. rewrite drop_0.
  assert (has_prefix (L "]") (a :: s) = false) as -> by (apply andb_false_iff; left; apply eqb_no; specialize (H2 Hne); congruence).
  by rewrite Hi.
Qed.

(** ** Expressions *)
Scheme alt_text_mut := Induction for alt_text Sort Prop
  with cat_text_mut := Induction for cat_text Sort Prop
  with rep_text_mut := Induction for rep_text Sort Prop
  with atom_text_mut := Induction for atom_text Sort Prop.
Combined Scheme text_mut from alt_text_mut, cat_text_mut, rep_text_mut, atom_text_mut.

(** what does not begin an atom *)
Definition starter (c : ascii) : Prop := c ∉ L "|)*+?{".
Definition calm (s : gostr) : Prop := match s with c :: _ => repeats c = false | [] => True end.
Definition closes (s : gostr) : Prop := s = [] \/ exists r, s = ")"%char :: r.
Definition divides (s : gostr) : Prop := closes s \/ exists r, s = "|"%char :: r.
Lemma divides_calm s : divides s -> calm s.
Proof. intros [[->|[r ->]]|[r ->]]; done. Qed.
Lemma starter_ne c x : starter c -> x ∈ L "|)*+?{" -> c <> x.
Proof. by intros H Hx ->. Qed.
Lemma starter_calm c s : starter c -> calm (c :: s).
Proof.
  intros H. apply contains_byte_false. intros Hin. apply H. change (L "|)*+?{") with (L "|)" ++ L "*+?{"). set_solver.
Qed.
Lemma p_suffix_calm a s : calm s -> p_suffix a s = Some (a, s).
Proof. destruct s as [|c s]; [done|]. cbn. by intros ->. Qed.
Lemma calm_next s : calm s -> match s with c :: _ => repeats c | [] => false end = false.
Proof. by destruct s. Qed.

Ltac bytes_in := apply (bool_decide_eq_true _); vm_compute; reflexivity.
Lemma plain_ne c x : plain c -> x ∈ L "()[\.^$*+?{|" -> c <> x.
Proof. by intros [_ H] Hx ->. Qed.
Lemma plain_starter c : plain c -> starter c.
Proof.
  intros Hp Hin. assert (c ∈ L "()[\.^$*+?{|") as H.
  { change (L "|)*+?{") with ["|";")";"*";"+";"?";"{"]%char in Hin. repeat (apply elem_of_cons in Hin as [->|Hin]; [bytes_in|]). by apply elem_of_nil in Hin. }
  by destruct Hp.
Qed.

Definition alt_ok (a : re) (t : gostr) : Prop :=
  fine a /\ (forall rest, calm rest -> calm (t ++ rest)) /\
  forall rest n, closes rest -> 3 * length (t ++ rest) + 3 <= n -> p_alt n (t ++ rest) = Some (a, rest).
Definition cat_ok (a : re) (t : gostr) : Prop :=
  fine a /\ (forall rest, calm rest -> calm (t ++ rest)) /\
  forall rest n, divides rest -> 3 * length (t ++ rest) + 2 <= n -> p_cat n (t ++ rest) = Some (a, rest).
Definition rep_ok (a : re) (t : gostr) : Prop :=
  fine a /\ (exists c t', t = c :: t' /\ starter c) /\
  forall rest n, calm rest -> 3 * length (t ++ rest) + 1 <= n ->
    exists b r, p_atom n (t ++ rest) = Some (b, r) /\ p_suffix b r = Some (a, rest).
Definition atom_ok (a : re) (t : gostr) : Prop :=
  fine a /\ (exists c t', t = c :: t' /\ starter c) /\
  forall rest n, 3 * length (t ++ rest) + 1 <= n -> p_atom n (t ++ rest) = Some (a, rest).

Lemma simple_ok a c t : fine a -> starter c -> c <> "("%char -> (forall rest, p_simple ((c :: t) ++ rest) = Some (a, rest)) -> atom_ok a (c :: t).
Proof.
  intros Hf Hs Hc Hp. split_and!; [done|by exists c, t|]. intros rest n Hn. destruct n as [|n]; [lia|].
  specialize (Hp rest). cbn [app] in *. cbn [p_atom]. by rewrite eqb_no.
Qed.
Lemma rep_suffix a b t c : atom_ok a t -> fine b ->
  (forall s, calm s -> p_suffix a (c :: s) = Some (b, s)) -> rep_ok b (t ++ [c]).
Proof.
  intros (_ & (d & t' & -> & Hd) & Hp) Hb Hs. split_and!; [done|by exists d, (t' ++ [c])|].
  intros rest n Hr Hn. rewrite <- app_assoc in *. exists a, (c :: rest). split; [by apply Hp|]. by apply Hs.
Qed.

Lemma texts_ok : (forall a t, alt_text a t -> alt_ok a t) /\ (forall a t, cat_text a t -> cat_ok a t) /\
  (forall a t, rep_text a t -> rep_ok a t) /\ (forall a t, atom_text a t -> atom_ok a t).
Proof.
  apply (text_mut (fun a t _ => alt_ok a t) (fun a t _ => cat_ok a t) (fun a t _ => rep_ok a t) (fun a t _ => atom_ok a t)).
  - intros a t _ (Hf & Hcalm & Hp). split_and!; [done|done|]. intros rest n Hc Hn. destruct n as [|n]; [lia|]. cbn [p_alt].
    rewrite Hp by (first [by left|lia]). destruct Hc as [->|[r ->]]; done.
  - intros a b t u _ (Fa & Ca & Pa) _ (Fb & Cb & Pb). split_and!; [done| |].
    + intros rest _. rewrite <- app_assoc. by apply Ca.
    + intros rest n Hc Hn. destruct n as [|n]; [lia|]. cbn [p_alt]. rewrite <- !app_assoc in *.
      rewrite Pa by (first [right; by eexists|lia]). cbn [app]. rewrite Ascii.eqb_refl.
      rewrite app_length in Hn. cbn [app length] in Hn. rewrite Pb by (first [done|lia]). done.
  - split_and!; [done|done|]. intros rest n Hd Hn. destruct n as [|n]; [lia|]. cbn [app p_cat].
    destruct Hd as [[->|[r ->]]|[r ->]]; done.
  - intros a l t u _ (Fa & (c & t' & -> & Hs) & Pa) _ (Fl & Cl & Pl). split_and!; [done| |].
    + intros rest _. by apply starter_calm.
    + intros rest n Hd Hn. destruct n as [|n]; [lia|]. rewrite <- app_assoc in *.
      destruct (Pa (u ++ rest) n) as (b & r & P1 & P2); [by apply Cl, divides_calm|lia|].
      cbn [app] in *. cbn [p_cat]. rewrite (eqb_no c "|"), (eqb_no c ")") by (eapply starter_ne; [done|bytes_in]).
      cbn [orb]. rewrite P1, P2. rewrite Pl; [done|done|]. cbn [length] in Hn. rewrite app_length in Hn. lia.
  - intros a t _ (Hf & Hs & Hp). split_and!; [done|done|]. intros rest n Hc Hn. exists a, rest. split; [by apply Hp|by apply p_suffix_calm].
  - intros a t _ Ha. apply (rep_suffix a); [done|by destruct Ha|]. intros s Hs. cbn [p_suffix].
    change (repeats "?") with true. cbn match. rewrite (calm_next s Hs). done.
  - intros a t _ Ha Hr. apply (rep_suffix a); [done|by destruct Ha|]. intros s Hs. cbn [p_suffix].
    change (repeats "*") with true. cbn match. rewrite (calm_next s Hs). change (Ascii.eqb "*" "?") with false. cbn match. by rewrite Hr.
  - intros a t _ Ha Hr. apply (rep_suffix a); [done|by destruct Ha|]. intros s Hs. cbn [p_suffix].
    change (repeats "+") with true. cbn match. rewrite (calm_next s Hs). change (Ascii.eqb "+" "?") with false. cbn match. by rewrite Hr.
  - intros c Hp. apply simple_ok; [done|by apply plain_starter|eapply plain_ne; [done|bytes_in]|].
    intros rest. cbn [app p_simple].
    rewrite (eqb_no c "["), (eqb_no c "."), (eqb_no c "^"), (eqb_no c "$"), (eqb_no c "\") by (eapply plain_ne; [done|bytes_in]).
    destruct Hp as [H1 H2]. apply is_ascii_iff in H1. rewrite H1. unfold special. apply contains_byte_false in H2. by rewrite H2.
  - intros c Hm. apply simple_ok; [done|intros H; vm_compute in H; set_solver|done|].
    intros rest. cbn [app]. unfold p_simple. cbn. rewrite perl_mark by done. apply punct_iff in Hm. by rewrite Hm.
  - intros c neg rs Hs. apply simple_ok; [done|intros H; vm_compute in H; set_solver|done|].
    intros rest. cbn [app]. unfold p_simple. cbn. by rewrite (perl_short _ _ _ Hs).
  - apply simple_ok; [done|intros H; vm_compute in H; set_solver|done|]. done.
  - apply simple_ok; [done|intros H; vm_compute in H; set_solver|done|]. done.
  - apply simple_ok; [done|intros H; vm_compute in H; set_solver|done|]. done.
  - intros rs t Hne Ht. apply simple_ok; [done|intros H; vm_compute in H; set_solver|done|].
    intros rest. cbn [app]. rewrite <- app_assoc. unfold p_simple. change (Ascii.eqb "[" "[") with true. cbn match. by apply p_class_ok.
  - intros rs t Hne Ht. change (L "[^" ++ t ++ ["]"%char]) with ("["%char :: "^"%char :: t ++ ["]"%char]).
    apply simple_ok; [done|intros H; vm_compute in H; set_solver|done|].
    intros rest. cbn [app]. rewrite <- app_assoc. unfold p_simple. change (Ascii.eqb "[" "[") with true. cbn match. by apply p_class_not.
  - intros a t _ (Hf & Hc & Hp). split_and!; [done|eexists _, _; split; [done|intros H; vm_compute in H; set_solver]|].
    intros rest n Hn. destruct n as [|n]; [lia|]. rewrite <- !app_assoc in *. cbn [app] in *. cbn [p_atom].
    rewrite Ascii.eqb_refl.
    assert (forall x, has_prefix ("?"%char :: x) (t ++ ")"%char :: rest) = false) as Hq.
    { intros x. specialize (Hc (")"%char :: rest) eq_refl). destruct (t ++ ")"%char :: rest) as [|d s]; [done|].
      cbn [has_prefix]. destruct (Ascii.eqb_spec "?" d) as [<-|]; [|done]. done. }
    change (L "?:") with ("?"%char :: [":"%char]). change (L "?") with ("?"%char :: []). rewrite !Hq.
    rewrite Hp; [by rewrite Ascii.eqb_refl|right; by eexists|]. cbn [length] in Hn. lia.
  - intros a t _ (Hf & Hc & Hp). change (L "(?:" ++ t ++ [")"%char]) with ("("%char :: "?"%char :: ":"%char :: t ++ [")"%char]).
    split_and!; [done|eexists _, _; split; [done|intros H; vm_compute in H; set_solver]|].
    intros rest n Hn. destruct n as [|n]; [lia|]. cbn [app] in *. rewrite <- !app_assoc in *. cbn [app] in *. cbn [p_atom].
    rewrite Ascii.eqb_refl. change (has_prefix (L "?:") ("?"%char :: ":"%char :: t ++ ")"%char :: rest)) with true.
    cbn [drop]. rewrite ?drop_0. rewrite Hp; [by rewrite Ascii.eqb_refl|right; by eexists|]. cbn [length] in Hn. lia.
Qed.
(** an expression is read as it is written *)
Lemma parse_text a t : alt_text a t -> re_parse t = Some a /\ fine a.
Proof.
  intros H. apply texts_ok in H as (Hf & _ & Hp). split; [|done]. unfold re_parse.
  specialize (Hp [] (3 * length t + 3)). rewrite app_nil_r in Hp. rewrite Hp; [done|by left|lia].
Qed.
(** a parenthesis that closes nothing is an error *)
Lemma parse_stray a u v : alt_text a u -> re_parse (u ++ ")"%char :: v) = None.
Proof.
  intros H. apply texts_ok in H as (_ & _ & Hp). unfold re_parse. rewrite Hp; [done|right; by eexists|lia].
Qed.
