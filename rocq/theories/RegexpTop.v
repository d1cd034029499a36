(** Regexp segments of routes with the model of package regexp. *)
From Coq Require Import NArith.
From Verif Require Import Base GoStr GoStrFacts Pattern Tree TreeSpec PatternFacts Header Router Ctx Engine EngineSpec NetRegexp RegexpSpec RegexpFacts RegexpParse.
Local Open Scope nat_scope.

Lemma go_find_text e t x : alt_text e t -> go_find t x = search e (S (length x)) true x.
Proof. intros H. apply parse_text in H as [H _]. unfold go_find. by rewrite H. Qed.
Lemma segment_captures s p t e x gs : regexp_segment s p t e -> captures go_find p x gs ->
  length gs = length (p_wild p) /\ exists u m, first_occurs e x u m gs.
Proof.
  intros (_ & _ & Hr & Ht) (reg & m & Hr' & Hf & Hl). rewrite Hr in Hr'. injection Hr' as <-. split; [done|].
  rewrite (go_find_text e) in Hf by done. apply search_some in Hf as [u Hu]; [eauto|]. by apply parse_text in Ht as [_ ?].
Qed.
Lemma segment_accepts s p t e x : regexp_segment s p t e ->
  seg_accepts go_find p x <-> groups e = length (p_wild p) /\ exists u m gs, occurs e x u m gs.
Proof.
  intros (_ & Hp & Hr & Ht). pose proof (proj2 (parse_text _ _ Ht)) as Hf. unfold seg_accepts. rewrite Hp. split.
  - intros (gs & reg & m & Hr' & Hs & Hl). rewrite Hr in Hr'. injection Hr' as <-.
    rewrite (go_find_text e) in Hs by done. split.
    + apply search_groups in Hs; [|done]. cbn in Hs. lia.
    + apply search_iff; [done|]. by eexists.
  - intros [Hg Ho]. apply search_iff in Ho as [l Hl]; [|done]. pose proof (search_groups _ _ _ Hf Hl) as Hn.
    destruct l as [|m gs]; [done|]. exists gs, t, m. split; [done|]. rewrite (go_find_text e) by done. split; [done|].
    cbn in Hn. lia.
Qed.

(** a segment whose expression closes a group that it did not open is refused *)
Lemma segment_stray s p e u v : alt_text e u -> analyzePattern go_ok s = Ok p -> p_reg p <> Some (u ++ ")"%char :: v).
Proof.
  intros He Ha Hr. apply analyze_grammar in Ha. destruct Ha as [| | | |? ? ? ? ? ? ? ? ? Hok]; cbn [p_reg] in Hr; try discriminate.
  injection Hr as ->. unfold go_ok in Hok. by rewrite (parse_stray e) in Hok.
Qed.

(** ** Anchored expressions *)
Fixpoint cat_app (b c : re) : re := match b with RCat a l => RCat a (cat_app l c) | _ => c end.
Lemma cat_app_text b t c u : cat_text b t -> cat_text c u -> cat_text (cat_app b c) (t ++ u).
Proof. intros Hb Hc. induction Hb; cbn; [done|]. rewrite <- app_assoc. by constructor. Qed.
Lemma cat_app_groups b t c : cat_text b t -> groups (cat_app b c) = groups b + groups c.
Proof. intros Hb. induction Hb; cbn; [done|]. rewrite IHHb. lia. Qed.
Lemma cat_app_describes b t c : cat_text b t -> forall pre x post gs, describes (cat_app b c) pre x post gs <->
  exists y z g1 g2, x = y ++ z /\ gs = g1 ++ g2 /\ describes b pre y (z ++ post) g1 /\ describes c (pre ++ y) z post g2.
Proof.
  intros Hb. induction Hb as [|a l t u Ha Hl IH]; intros pre x post gs; cbn [cat_app].
  - split.
    + intros Hd. exists [], x, [], gs. split_and!; [done|done|constructor|by rewrite app_nil_r].
    + intros (y & z & g1 & g2 & -> & -> & Hy & Hz). inversion Hy; subst. rewrite app_nil_r in Hz. done.
  - split.
    + intros Hd. inversion Hd as [| | | |? ? ? x1 x2 ? ga gb H1 H2| | | | | | | |]; subst.
      apply IH in H2 as (y & z & g1 & g2 & -> & -> & Hy & Hz).
      exists (x1 ++ y), z, (ga ++ g1), g2. split_and!; [by rewrite app_assoc|by rewrite app_assoc| |by rewrite app_assoc].
      rewrite <- app_assoc in H1. by constructor.
    + intros (y & z & g1 & g2 & -> & -> & Hy & Hz). inversion Hy as [| | | |? ? ? x1 x2 ? ga gb H1 H2| | | | | | | |]; subst.
      rewrite <- !app_assoc. constructor; [by rewrite <- app_assoc|]. apply IH. exists x2, z, gb, g2.
      split_and!; [done|done|done|by rewrite <- app_assoc].
Qed.
Definition anchored (b : re) : re := RCat RBegin (cat_app b (RCat REnd REmpty)).
Lemma anchored_text b t : cat_text b t -> alt_text (anchored b) (L "^" ++ t ++ L "$").
Proof.
  intros Hb. constructor. unfold anchored. apply (ct_cons RBegin _ (L "^")); [repeat constructor|].
  apply cat_app_text; [done|]. rewrite <- (app_nil_r (L "$")). constructor; [constructor; apply as_end|constructor].
Qed.
Lemma anchored_occurs b t x u m gs : cat_text b t -> occurs (anchored b) x u m gs <-> u = [] /\ m = x /\ describes b [] x [] gs.
Proof.
  intros Hb. split.
  - intros (v & -> & _ & Hd). unfold anchored in Hd.
    inversion Hd as [| | | |? ? ? x1 x2 ? ga gb H1 H2| | | | | | | |]; subst. inversion H1; subst.
    apply (cat_app_describes b t) in H2 as (y & z & g1 & g2 & -> & -> & Hy & Hz); [|done].
    inversion Hz as [| | | |? ? ? x1 x2' ? ga' gb' H3 H4| | | | | | | |]; subst. inversion H3; subst. inversion H4; subst.
    assert (v = []) as -> by (destruct v; [done|]; discriminate). cbn [app] in *. rewrite !app_nil_r in *. done.
  - intros (-> & -> & Hd). exists []. split_and!; [by rewrite app_nil_r|constructor|].
    unfold anchored. apply (d_cat RBegin _ [] [] x [] [] gs); [constructor|].
    apply (cat_app_describes b t); [done|]. exists x, [], gs, []. split_and!; [by rewrite app_nil_r|by rewrite app_nil_r|done|].
    apply (d_cat REnd REmpty x [] [] [] [] []); constructor.
Qed.
Lemma anchored_groups b t : cat_text b t -> groups (anchored b) = groups b.
Proof. intros Hb. unfold anchored. cbn. rewrite (cat_app_groups b t) by done. cbn. lia. Qed.

Lemma anchored_segment s p t b x : analyzePattern go_ok s = Ok p -> p_typ p = PRegexp -> p_reg p = Some (L "^" ++ t ++ L "$") ->
  cat_text b t ->
  (seg_accepts go_find p x <-> groups b = length (p_wild p) /\ exists gs, describes b [] x [] gs) /\
  forall gs, captures go_find p x gs -> describes b [] x [] gs.
Proof.
  intros Ha Hp Hr Hb.
  assert (regexp_segment s p (L "^" ++ t ++ L "$") (anchored b)) as Hs by (split_and!; [done|done|done|by apply anchored_text]).
  split.
  - rewrite (segment_accepts s p _ _ x Hs), (anchored_groups b t) by done. split.
    + intros (Hg & u & m & gs & Ho). apply (anchored_occurs b t) in Ho as (_ & _ & Hd); [|done]. eauto.
    + intros (Hg & gs & Hd). split; [done|]. exists [], x, gs. by apply (anchored_occurs b t).
  - intros gs Hc. destruct (segment_captures _ _ _ _ _ _ Hs Hc) as (_ & u & m & Ho & _).
    by apply (anchored_occurs b t) in Ho as (_ & _ & Hd).
Qed.
(** one group around everything *)
Lemma grouped_segment s p t b x : analyzePattern go_ok s = Ok p -> p_typ p = PRegexp -> p_reg p = Some (L "^(" ++ t ++ L ")$") ->
  alt_text b t -> groups b = 0 ->
  (seg_accepts go_find p x <-> length (p_wild p) = 1 /\ describes b [] x [] []) /\
  forall gs, captures go_find p x gs -> gs = [x].
Proof.
  intros Ha Hp Hr Hb Hg.
  assert (cat_text (RCat (RGroup b) REmpty) (["("%char] ++ t ++ [")"%char])) as Hc.
  { rewrite <- (app_nil_r (["("%char] ++ t ++ [")"%char])). constructor; [constructor; by constructor|constructor]. }
  assert (forall gs, describes (RCat (RGroup b) REmpty) [] x [] gs <-> gs = [x] /\ describes b [] x [] []) as Hd.
  { intros gs. split.
    - intros Hd. inversion Hd as [| | | |? ? ? x1 x2 ? ga gb H1 H2| | | | | | | |]; subst. inversion H2; subst.
      inversion H1; subst. rewrite !app_nil_r in *. cbn [app] in *.
      match goal with H : describes b _ _ _ ?g |- _ => assert (g = []) as -> by
        (apply describes_groups in H; [rewrite Hg in H; by apply nil_length_inv|by apply parse_text in Hb as [_ ?]]) end. done.
    - intros [-> H]. pose proof (d_cat (RGroup b) REmpty [] x [] [] [x] [] (d_group _ _ _ _ _ H) (d_empty _ _)) as Hx.
      by rewrite (app_nil_r x) in Hx. }
  assert (L "^(" ++ t ++ L ")$" = L "^" ++ (["("%char] ++ t ++ [")"%char]) ++ L "$") as Heq
    by (rewrite <- !app_assoc; done).
  rewrite Heq in Hr. destruct (anchored_segment s p _ _ x Ha Hp Hr Hc) as [H1 H2]. split.
  - rewrite H1. cbn [groups]. rewrite Hg. split.
    + intros (Hl & gs & H). apply Hd in H as [_ H]. split; [lia|done].
    + intros (Hl & H). split; [lia|]. exists [x]. by apply Hd.
  - intros gs Hcap. by apply H2, Hd in Hcap as [? _].
Qed.

(** ** Routes *)
Lemma route_accepts_at re_find r ss i p : route_accepts re_find r ss -> r !! i = Some p -> p_typ p = PRegexp ->
  exists x, ss !! i = Some x /\ seg_accepts re_find p x.
Proof.
  intros Hr. revert i. induction Hr as [q s Hs|q s ss Hq _|q r s ss Hs Hr IH]; intros i Hi Hp.
  - destruct i; [|done]. injection Hi as ->. by exists s.
  - destruct i; [|done]. injection Hi as ->. congruence.
  - destruct i as [|i]; [injection Hi as ->; by exists s|]. by apply IH.
Qed.
Lemma fits_regexp A (v : route A) r i s p t e : fits go_ok go_find v r ->
  uri_segs (rt_variant v) !! i = Some s -> regexp_segment s p t e ->
  exists x u m gs, path_segs (rq_path r) !! i = Some x /\ occurs e x u m gs /\ length gs = length (p_wild p).
Proof.
  intros (_ & ps & Hu & Ha) Hi Hs. destruct (Forall2_lookup_l _ _ _ _ _ Hu Hi) as (q & Hq & Hpq).
  pose proof Hs as (Hp & Ht & _ & Htext). rewrite Hpq in Hp. injection Hp as ->.
  destruct (route_accepts_at _ _ _ _ _ Ha Hq Ht) as (x & Hx & Hacc).
  apply (segment_accepts s p t e x Hs) in Hacc as (Hg & u & m & gs & Ho). exists x, u, m, gs. split_and!; [done|done|].
  destruct Ho as (w & _ & _ & Hd). apply describes_groups in Hd; [congruence|]. by apply parse_text in Htext as [_ ?].
Qed.

(** ** Runs *)
(** a repeated class takes as many characters as it can *)
Lemma set_ways_empty neg rs st y w : ways (RSet neg rs) st (y ++ w) = [] -> ~ one_of neg rs y w.
Proof.
  intros Hw Ho. assert ((w, []) ∈ ways (RSet neg rs) true (y ++ w)) as Hin by (apply (ways_complete (RSet neg rs) I []); by constructor).
  change (ways (RSet neg rs) true (y ++ w)) with (ways (RSet neg rs) st (y ++ w)) in Hin. rewrite Hw in Hin. by apply elem_of_nil in Hin.
Qed.
Lemma set_ways_short neg rs st s s' gs l : ways (RSet neg rs) st s = (s', gs) :: l -> length s' < length s.
Proof.
  intros Hw. assert ((s', gs) ∈ ways (RSet neg rs) true s) as Hin.
  { change (ways (RSet neg rs) true s) with (ways (RSet neg rs) st s). rewrite Hw. left. }
  apply (ways_sound (RSet neg rs) I []) in Hin as (x & -> & Hd). apply describes_nonempty in Hd; [|done].
  rewrite app_length. destruct x; [done|cbn; lia].
Qed.
Lemma star_run neg rs n : forall st s, length s < n ->
  exists rest l, star_ways (ways (RSet neg rs)) n st s = (rest, []) :: l /\ forall y w, rest = y ++ w -> ~ one_of neg rs y w.
Proof.
  induction n as [|n IH]; intros st s Hl; [lia|]. cbn [star_ways].
  destruct (ways (RSet neg rs) st s) as [|[s' gs] l] eqn:Hw.
  - exists s, []. split; [done|]. intros y w ->. by eapply set_ways_empty.
  - apply set_ways_short in Hw. cbn [flat_map fst]. destruct (Nat.ltb_spec (length s') (length s)); [|lia].
    destruct (IH false s' ltac:(lia)) as (rest & l' & -> & Hr). cbn [app]. eauto.
Qed.
Lemma run_ways a st s : match ways a st s with
  | [] => ways (RCat (RGroup (RCat (RPlus a) REmpty)) REmpty) st s = []
  | (s1, _) :: _ => forall r g l, star_ways (ways a) (S (length s1)) (st && (length s1 =? length s)) s1 = (r, g) :: l ->
      exists gs l', ways (RCat (RGroup (RCat (RPlus a) REmpty)) REmpty) st s = (r, gs) :: l'
  end.
Proof.
  destruct (ways a st s) as [|[s1 g1] l1] eqn:E.
  - cbn [ways]. by rewrite E.
  - intros r g l Hs. cbn [ways]. rewrite E. cbn [flat_map fst]. rewrite Hs. cbn [app flat_map map fst snd]. eauto.
Qed.
Lemma run_segment s p t neg rs x gs : analyzePattern go_ok s = Ok p -> p_typ p = PRegexp -> p_reg p = Some (L "(" ++ t ++ L "+)") ->
  atom_text (RSet neg rs) t -> captures go_find p x gs ->
  exists u m v, gs = [m] /\ x = u ++ m ++ v /\ first_occurs (RPlus (RSet neg rs)) x u m [] /\ forall y w, v = y ++ w -> ~ one_of neg rs y w.
Proof.
  intros Ha Hp Hr Ht (reg & m & Hr' & Hf & Hl). rewrite Hr in Hr'. injection Hr' as <-.
  set (e := RCat (RGroup (RCat (RPlus (RSet neg rs)) REmpty)) REmpty).
  assert (alt_text e (L "(" ++ t ++ L "+)")) as Htext.
  { constructor. replace (L "(" ++ t ++ L "+)") with ((["("%char] ++ ((t ++ ["+"%char]) ++ []) ++ [")"%char]) ++ [])
      by (rewrite !app_nil_r, <- !app_assoc; done).
    apply ct_cons; [|constructor]. apply rt_once, as_group, at_one, ct_cons; [|constructor]. by apply rt_plus. }
  rewrite (go_find_text e) in Hf by done. clear Hl Hr Ha Hp Htext.
  assert (forall u y gs, occurs e x u y gs <-> gs = [y] /\ occurs (RPlus (RSet neg rs)) x u y []) as Ho.
  { intros u y gs'. unfold occurs, e. split.
    - intros (v & Hx & Hw & Hd). inversion Hd as [| | | |? ? ? x1 x2 ? ga gb H1 H2| | | | | | | |]; subst. inversion H2; subst.
      inversion H1 as [| | | | | | | | | | | |? ? ? ? ga' H3]; subst.
      inversion H3 as [| | | |? ? ? x3 x4 ? gc gd H4 H5| | | | | | | |]; subst. inversion H5; subst.
      assert (gc = []) as -> by (inversion H4; done). rewrite !app_nil_r in *. cbn [app] in *. eauto.
    - intros (-> & v & Hx & Hw & Hd). exists v. split_and!; [done|done|].
      pose proof (d_cat _ REmpty u y [] v [] [] Hd (d_empty _ _)) as H1. rewrite app_nil_r in H1.
      pose proof (d_cat _ REmpty u y [] v [y] [] (d_group _ _ _ _ _ H1) (d_empty _ _)) as H2. by rewrite app_nil_r in H2. }
  apply search_head in Hf as (u & v & l & [H1 H2] & Hx & Hw); [|by unfold e; cbn]. pose proof H1 as H1'. apply Ho in H1' as [-> H1'].
  exists u, m, v. split_and!; [done|done|split; [done|]|].
  - intros u' m' gs' Ho'. assert (gs' = []) as -> by (destruct Ho' as (? & _ & _ & Hd); inversion Hd; done).
    apply (H2 u' m' [m']). by apply Ho.
  - pose proof (run_ways (RSet neg rs) (bool_decide (u = [])) (m ++ v)) as Hrun. fold e in Hrun.
    destruct (ways (RSet neg rs) (bool_decide (u = [])) (m ++ v)) as [|[s1 g1] l1]; [by rewrite Hw in Hrun|].
    destruct (star_run neg rs (S (length s1)) (bool_decide (u = []) && (length s1 =? length (m ++ v))) s1 ltac:(lia)) as (rest & l' & Hst & Hend).
    destruct (Hrun _ _ _ Hst) as (g2 & l2 & Hw2). rewrite Hw in Hw2. injection Hw2 as -> _ _. exact Hend.
Qed.
