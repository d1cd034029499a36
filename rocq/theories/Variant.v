(** Facts about the translation of gin-style patterns, router.go:331-348. *)
From Verif Require Import Base GoStr Strconv Pattern Tree GoStrFacts TreeSpec ListFacts TreeFacts
  Router RouterSpec RouterFacts RouterDump MethodFacts HandlerFacts RouterProps.

(** ** TrimSpace *)
Lemma tls_suffix s : exists a, s = a ++ trim_left_space s.
Proof.
  induction s as [s IH] using (induction_ltof1 _ length). unfold ltof in IH.
  destruct s as [|a s1]; [by exists []|]. cbn [trim_left_space].
  destruct (is_space1 a).
  { destruct (IH s1) as [x Hx]; [simpl; lia|]. exists (a :: x). simpl. by f_equal. }
  destruct s1 as [|b s2]; [by exists []|]. destruct (is_space2 a b).
  { destruct (IH s2) as [x Hx]; [simpl; lia|]. exists (a :: b :: x). simpl. by do 2 f_equal. }
  destruct s2 as [|c s3]; [by exists []|]. destruct (is_space3 a b c); [|by exists []].
  destruct (IH s3) as [x Hx]; [simpl; lia|]. exists (a :: b :: c :: x). simpl. by do 3 f_equal.
Qed.
Lemma tlsr_suffix s : exists a, s = a ++ trim_left_space_rev s.
Proof.
  induction s as [s IH] using (induction_ltof1 _ length). unfold ltof in IH.
  destruct s as [|a s1]; [by exists []|]. cbn [trim_left_space_rev].
  destruct (is_space1 a).
  { destruct (IH s1) as [x Hx]; [simpl; lia|]. exists (a :: x). simpl. by f_equal. }
  destruct s1 as [|b s2]; [by exists []|]. destruct (is_space2 b a).
  { destruct (IH s2) as [x Hx]; [simpl; lia|]. exists (a :: b :: x). simpl. by do 2 f_equal. }
  destruct s2 as [|c s3]; [by exists []|]. destruct (is_space3 c b a); [|by exists []].
  destruct (IH s3) as [x Hx]; [simpl; lia|]. exists (a :: b :: c :: x). simpl. by do 3 f_equal.
Qed.
Lemma tls_length s : length (trim_left_space s) <= length s.
Proof. destruct (tls_suffix s) as [a Ha]. rewrite Ha at 2. rewrite app_length. lia. Qed.

(** not beginning with a space *)
Definition lead (s : gostr) : Prop := trim_left_space s = s.
Definition leadr (s : gostr) : Prop := trim_left_space_rev s = s.
Lemma lead_tls s : lead (trim_left_space s).
Proof.
  unfold lead. induction s as [s IH] using (induction_ltof1 _ length). unfold ltof in IH.
  destruct s as [|a s1]; [done|]. cbn [trim_left_space].
  destruct (is_space1 a) eqn:H1; [apply IH; simpl; lia|].
  destruct s1 as [|b s2]; [simpl; by rewrite H1|]. destruct (is_space2 a b) eqn:H2; [apply IH; simpl; lia|].
  destruct s2 as [|c s3]; [simpl; by rewrite H1, H2|]. destruct (is_space3 a b c) eqn:H3; [apply IH; simpl; lia|].
  cbn [trim_left_space]. by rewrite H1, H2, H3.
Qed.
Lemma leadr_tls s : leadr (trim_left_space_rev s).
Proof.
  unfold leadr. induction s as [s IH] using (induction_ltof1 _ length). unfold ltof in IH.
  destruct s as [|a s1]; [done|]. cbn [trim_left_space_rev].
  destruct (is_space1 a) eqn:H1; [apply IH; simpl; lia|].
  destruct s1 as [|b s2]; [simpl; by rewrite H1|]. destruct (is_space2 b a) eqn:H2; [apply IH; simpl; lia|].
  destruct s2 as [|c s3]; [simpl; by rewrite H1, H2|]. destruct (is_space3 c b a) eqn:H3; [apply IH; simpl; lia|].
  cbn [trim_left_space_rev]. by rewrite H1, H2, H3.
Qed.
Lemma lead_prefix s t : lead (s ++ t) -> lead s.
Proof.
  unfold lead. destruct s as [|a [|b [|c s]]]; [done| | |].
  - cbn [app trim_left_space]. destruct (is_space1 a) eqn:H1; [|done].
    intros Hl. pose proof (tls_length t) as Hn. rewrite Hl in Hn. simpl in Hn. lia.
  - cbn [app trim_left_space]. destruct (is_space1 a) eqn:H1.
    { intros Hl. pose proof (tls_length (b :: t)) as Hn. cbn [trim_left_space] in Hn. rewrite Hl in Hn. simpl in Hn. lia. }
    destruct (is_space2 a b) eqn:H2; [|done].
    intros Hl. pose proof (tls_length t) as Hn. rewrite Hl in Hn. simpl in Hn. lia.
  - cbn [app trim_left_space]. destruct (is_space1 a) eqn:H1.
    { intros Hl. pose proof (tls_length (b :: c :: s ++ t)) as Hn. cbn [trim_left_space] in Hn. rewrite Hl in Hn. simpl in Hn. lia. }
    destruct (is_space2 a b) eqn:H2.
    { intros Hl. pose proof (tls_length (c :: s ++ t)) as Hn. cbn [trim_left_space] in Hn. rewrite Hl in Hn. simpl in Hn. lia. }
    destruct (is_space3 a b c) eqn:H3; [|done].
    intros Hl. pose proof (tls_length (s ++ t)) as Hn. rewrite Hl in Hn. simpl in Hn. rewrite app_length in Hn. lia.
Qed.
Lemma trs_prefix s : exists a, s = trim_right_space s ++ a.
Proof.
  unfold trim_right_space. destruct (tlsr_suffix (rev s)) as [a Ha]. exists (rev a).
  rewrite <- rev_app_distr, <- Ha. by rewrite rev_involutive.
Qed.
Lemma trs_idem s : trim_right_space (trim_right_space s) = trim_right_space s.
Proof. unfold trim_right_space. rewrite rev_involutive. f_equal. apply leadr_tls. Qed.
Lemma trim_space_idem s : trim_space (trim_space s) = trim_space s.
Proof.
  unfold trim_space. destruct (trs_prefix (trim_left_space s)) as [a Ha].
  assert (Hl : lead (trim_right_space (trim_left_space s))).
  { eapply lead_prefix. rewrite <- Ha. apply lead_tls. }
  rewrite Hl. apply trs_idem.
Qed.
Lemma trim_space_sub s : exists a b, s = a ++ trim_space s ++ b.
Proof.
  unfold trim_space. destruct (tls_suffix s) as [a Ha]. destruct (trs_prefix (trim_left_space s)) as [b Hb].
  exists a, b. by rewrite <- Hb.
Qed.
Lemma trim_space_no c s : c ∉ s -> c ∉ trim_space s.
Proof. intros Hc Hin. destruct (trim_space_sub s) as (a & b & Hs). rewrite Hs in Hc. apply Hc. set_solver. Qed.
Lemma rev_trim_keeps_first a s : trim_left_space [a] = [a] -> (forall b, is_space2 a b = false) ->
  (forall b c, is_space3 a b c = false) -> exists s', trim_right_space (a :: s) = a :: s'.
Proof.
  intros H1 H2 H3. destruct (trs_prefix (a :: s)) as [x Hx].
  destruct (trim_right_space (a :: s)) as [|b l] eqn:Ht; [exfalso|simpl in Hx; inversion Hx; subst; eauto].
  assert (Hk : forall u, trim_left_space_rev (u ++ [a]) <> []).
  { clear - H1 H2 H3. intros u. induction u as [u IH] using (induction_ltof1 _ length). unfold ltof in IH.
    assert (Ha : is_space1 a = false) by (simpl in H1; destruct (is_space1 a); done).
    destruct u as [|x u]; [simpl; by rewrite Ha|]. cbn [app]. cbn [trim_left_space_rev].
    destruct (is_space1 x); [apply IH; simpl; lia|].
    destruct u as [|y u]; [simpl; rewrite H2; done|]. cbn [app]. destruct (is_space2 y x); [apply IH; simpl; lia|].
    destruct u as [|z u]; [simpl; rewrite H3; done|]. cbn [app]. destruct (is_space3 z y x); [|done].
    apply IH. simpl. lia. }
  unfold trim_right_space in Ht. simpl in Ht. apply (f_equal (@rev ascii)) in Ht. rewrite rev_involutive in Ht.
  by apply (Hk (rev s)).
Qed.
Lemma trim_space_star s : exists s', trim_space ("*"%char :: s) = "*"%char :: s'.
Proof.
  unfold trim_space. assert (trim_left_space ("*"%char :: s) = "*"%char :: s) as ->.
  { cbn [trim_left_space]. change (is_space1 "*") with false. cbn match. destruct s as [|b [|c s]]; done. }
  apply rev_trim_keeps_first; done.
Qed.

(** ** The translation *)

(** one segment: "*name" and ":name" lose surrounding space, ":name" becomes "<name>" *)
Inductive gin_seg : gostr -> gostr -> Prop :=
  | gin_star n : gin_seg ("*"%char :: n) (trim_space ("*"%char :: n))
  | gin_colon n : gin_seg (":"%char :: n) (L "<" ++ trim_space n ++ L ">")
  | gin_other s : (forall n, s <> "*"%char :: n) -> (forall n, s <> ":"%char :: n) -> gin_seg s s.

Lemma variant_seg_gin s : gin_seg s (variant_seg s).
Proof.
  destruct s as [|a s]; [by constructor|]. unfold variant_seg. cbn [has_prefix L list_ascii_of_string].
  change (has_prefix (L "*") (a :: s)) with (Ascii.eqb "*" a && has_prefix [] s).
  change (has_prefix (L ":") (a :: s)) with (Ascii.eqb ":" a && has_prefix [] s).
  cbn [has_prefix]. rewrite !andb_true_r.
  destruct (Ascii.eqb_spec "*" a) as [<-|H1]; [constructor|].
  destruct (Ascii.eqb_spec ":" a) as [<-|H2]; [constructor|].
  constructor; congruence.
Qed.
Lemma gin_seg_fun s a b : gin_seg s a -> gin_seg s b -> a = b.
Proof.
  destruct 1 as [n|n|s H1 H2]; inversion 1; subst; try done; try (by exfalso; eapply H; eauto); try (by exfalso; eapply H0; eauto).
  all: try (exfalso; by eapply H1); try (exfalso; by eapply H2).
Qed.
Lemma gin_seg_idem s a : gin_seg s a -> gin_seg a a.
Proof.
  destruct 1 as [n|n|s H1 H2].
  - pose proof (trim_space_idem ("*"%char :: n)) as Hi. destruct (trim_space_star n) as [n' Hn]. rewrite Hn in Hi |- *.
    rewrite <- Hi at 2. constructor.
  - by constructor.
  - by constructor.
Qed.
Lemma gin_seg_no_slash s a : gin_seg s a -> "/"%char ∉ s -> "/"%char ∉ a.
Proof.
  destruct 1 as [n|n|s H1 H2]; intros Hn; [by apply trim_space_no| |done].
  apply not_elem_of_cons in Hn as [_ Hn]. apply not_elem_of_cons. split; [done|].
  apply not_elem_of_app. split; [by apply trim_space_no|]. apply not_elem_of_cons. split; [done|apply not_elem_of_nil].
Qed.

Definition plain_seg (s : gostr) : Prop := (forall n, s <> "*"%char :: n) /\ (forall n, s <> ":"%char :: n).

Lemma index_str_None p s : index_str p s = None <-> forall a b, s <> a ++ p ++ b.
Proof.
  induction s as [|c s IH].
  - cbn [index_str]. destruct (has_prefix p []) eqn:Hp.
    + split; [done|]. intros Hn. apply has_prefix_spec in Hp as [r Hr]. by destruct (Hn [] r).
    + split; [|done]. intros _ a b Hab. destruct a; [|done]. simpl in Hab.
      assert (has_prefix p [] = true) by (apply has_prefix_spec; eauto). congruence.
  - cbn [index_str]. destruct (has_prefix p (c :: s)) eqn:Hp.
    + split; [done|]. intros Hn. apply has_prefix_spec in Hp as [r Hr]. by destruct (Hn [] r).
    + split.
      * destruct (index_str p s); [done|]. intros _ [|x a] b Hab.
        -- assert (has_prefix p (c :: s) = true) by (apply has_prefix_spec; eauto). congruence.
        -- simpl in Hab. inversion Hab; subst. by apply (proj1 IH eq_refl a b).
      * intros Hn. destruct (index_str p s); [|done]. exfalso. assert (Some n = None) by (apply IH; intros a b ->; by apply (Hn (c :: a) b)). done.
Qed.
Lemma contains_false p s : contains p s = false <-> forall a b, s <> a ++ p ++ b.
Proof. unfold contains. rewrite <- index_str_None. by destruct (index_str p s). Qed.

Lemma join_app sep l1 l2 : l1 <> [] -> l2 <> [] -> join sep (l1 ++ l2) = join sep l1 ++ sep ++ join sep l2.
Proof.
  intros H1 H2. induction l1 as [|x l1 IH]; [done|]. destruct l1 as [|y l1].
  - cbn [app]. by rewrite join_cons.
  - change ((x :: y :: l1) ++ l2) with (x :: ((y :: l1) ++ l2)). rewrite !join_cons by done.
    rewrite IH by done. by rewrite <- !app_assoc.
Qed.
Lemma join_head sep x l : exists v, join sep (x :: l) = x ++ v.
Proof. destruct l as [|y l]; [exists []; by rewrite app_nil_r|]. rewrite join_cons by done. eauto. Qed.
Lemma split_member c s l1 x l2 : split_byte c s = l1 ++ x :: l2 -> l1 <> [] -> exists u v, s = u ++ c :: x ++ v.
Proof.
  intros Hs Hn. pose proof (join_split c s) as Hj. rewrite Hs, join_app in Hj by done.
  destruct (join_head [c] x l2) as [v Hv]. rewrite Hv in Hj. exists (join [c] l1), v. by rewrite <- Hj.
Qed.
Lemma map_id_in {B} (f : B -> B) l : Forall (fun x => f x = x) l -> map f l = l.
Proof. induction 1; simpl; [done|]. by f_equal. Qed.

(** for a URI that begins with a slash the translation works segment by segment *)
Lemma variant_rooted t : let u := "/"%char :: t in
  _VariantUri u = join (L "/") (map variant_seg (split_byte "/" u)).
Proof.
  intros u. unfold _VariantUri. destruct (contains (L "/:") u) eqn:H1; [done|]. destruct (contains (L "/*") u) eqn:H2; [done|].
  cbn [negb andb]. rewrite map_id_in; [symmetry; apply join_split|].
  unfold u. cbn [split_byte]. change (Ascii.eqb "/" "/") with true. cbn match. constructor; [done|].
  apply Forall_forall. intros x Hx. apply elem_of_list_split in Hx as (l1 & l2 & Hx).
  destruct (split_member "/" u ([] :: l1) x l2) as (a & b & Hab); [|done|].
  { unfold u. cbn [split_byte]. change (Ascii.eqb "/" "/") with true. cbn match. by rewrite Hx. }
  pose proof (variant_seg_gin x) as Hg. revert Hab. clear Hx. destruct Hg as [n|n|y Hy1 Hy2]; intros Hab; [exfalso..|done].
  - eapply (proj1 (contains_false _ _) H2 a (n ++ b)). done.
  - eapply (proj1 (contains_false _ _) H1 a (n ++ b)). done.
Qed.
Lemma variant_split t : let u := "/"%char :: t in
  Forall2 gin_seg (split_byte "/" u) (split_byte "/" (_VariantUri u)).
Proof.
  intros u. unfold u. rewrite variant_rooted. change (L "/") with ["/"%char]. rewrite split_join.
  - apply Forall2_fmap_r, Forall_Forall2_diag, Forall_forall. intros x _. apply variant_seg_gin.
  - cbn [split_byte]. change (Ascii.eqb "/" "/") with true. done.
  - apply Forall_fmap. eapply Forall_impl; [apply split_byte_no_sep|]. intros x Hx. eapply gin_seg_no_slash; [apply variant_seg_gin|done].
Qed.
Lemma variant_iff t v : _VariantUri ("/"%char :: t) = v <->
  Forall2 gin_seg (split_byte "/" ("/"%char :: t)) (split_byte "/" v).
Proof.
  split; [intros <-; apply variant_split|]. intros Hf. pose proof (variant_split t) as Hv. cbn zeta in Hv.
  assert (Hs : split_byte "/" (_VariantUri ("/"%char :: t)) = split_byte "/" v).
  { revert Hf Hv. generalize (split_byte "/" (_VariantUri ("/"%char :: t))). generalize (split_byte "/" v).
    generalize (split_byte "/" ("/"%char :: t)). clear. intros l a b Ha. revert b.
    induction Ha as [|x y l a Hx Ha IH]; intros b Hb; inversion Hb; subst; [done|].
    f_equal; [by eapply gin_seg_fun|]. by apply IH. }
  rewrite <- (join_split "/" (_VariantUri _)), <- (join_split "/" v). by rewrite Hs.
Qed.
Lemma variant_keeps_root t : exists t', _VariantUri ("/"%char :: t) = "/"%char :: t'.
Proof.
  rewrite variant_rooted. cbn [split_byte]. change (Ascii.eqb "/" "/") with true. cbn [map].
  change (variant_seg []) with (@nil ascii). rewrite join_cons.
  - eexists. reflexivity.
  - intros Hn. apply fmap_nil_inv in Hn. by apply split_byte_nonempty in Hn.
Qed.
Lemma variant_idem t : let u := "/"%char :: t in _VariantUri (_VariantUri u) = _VariantUri u.
Proof.
  intros u. destruct (variant_keeps_root t) as [t' Ht']. unfold u. rewrite Ht'. apply variant_iff. rewrite <- Ht'.
  pose proof (variant_split t) as Hv. cbn zeta in Hv. revert Hv.
  generalize (split_byte "/" ("/"%char :: t)) (split_byte "/" (_VariantUri ("/"%char :: t))). clear.
  intros l k. induction 1; constructor; [by eapply gin_seg_idem|done].
Qed.
Lemma variant_plain t : let u := "/"%char :: t in
  Forall (fun s => (forall n, s <> "*"%char :: n) /\ (forall n, s <> ":"%char :: n)) (split_byte "/" u) -> _VariantUri u = u.
Proof.
  intros u Hf. apply variant_iff. apply Forall_Forall2_diag. eapply Forall_impl; [exact Hf|].
  intros s [H1 H2]. by constructor.
Qed.

(** Two patterns that are the same after translation of their segments *)
Definition pat_gin (p q : gostr) : Prop :=
  trim_space p = trim_space q \/
  exists s t, trim_space p = "/"%char :: s /\ trim_space q = "/"%char :: t /\
    Forall2 (fun x y => exists z, gin_seg x z /\ gin_seg y z) (split_byte "/" s) (split_byte "/" t).

Lemma split_cat c a : exists l, forall b', split_byte c (a ++ c :: b') = l ++ split_byte c b' /\ l <> [].
Proof.
  induction a as [|x a [l IH]].
  - exists [[]]. intros b'. simpl. rewrite Ascii.eqb_refl. done.
  - destruct (Ascii.eqb_spec x c) as [->|Hne].
    + exists ([] :: l). intros b'. simpl. rewrite Ascii.eqb_refl. by rewrite (proj1 (IH b')).
    + destruct l as [|y l]; [by destruct (IH []) as [_ ?]|].
      exists ((x :: y) :: l). intros b'. simpl. apply Ascii.eqb_neq in Hne. rewrite Hne. rewrite (proj1 (IH b')). done.
Qed.
Lemma variant_gin pre p q : pat_gin p q -> (pre = [] \/ exists x, pre = "/"%char :: x) ->
  _VariantUri (pre ++ trim_space p) = _VariantUri (pre ++ trim_space q).
Proof.
  intros [->|(s & t & -> & -> & Hst)] Hpre; [done|].
  assert (exists s', pre ++ "/"%char :: s = "/"%char :: s') as [s' Hs'] by (destruct Hpre as [->|[x ->]]; eexists; reflexivity).
  assert (exists t', pre ++ "/"%char :: t = "/"%char :: t') as [t' Ht'] by (destruct Hpre as [->|[x ->]]; eexists; reflexivity).
  rewrite Hs'. apply variant_iff. rewrite <- Hs'. pose proof (variant_split t') as Hv. cbn zeta in Hv. rewrite <- Ht' in Hv.
  destruct (split_cat "/" pre) as [l Hl]. rewrite (proj1 (Hl s)). rewrite (proj1 (Hl t)) in Hv.
  apply Forall2_app_inv_l in Hv as (k1 & k2 & Hk1 & Hk2 & ->). apply Forall2_app; [done|].
  revert Hk2. revert Hst. generalize (split_byte "/" s) (split_byte "/" t). clear. intros a b Hab. revert k2.
  induction Hab as [|x y a b (z & Hx & Hy) Hab IH]; intros k2 Hk; inversion Hk; subst; constructor; [|by apply IH].
  by rewrite <- (gin_seg_fun _ _ _ Hy H1).
Qed.

(** ** Engines built from patterns that only differ in notation *)
Section Gin.
Context {A : Type}.
Variable re_ok : gostr -> bool.
Implicit Types h : list (ev A).
Implicit Types ops : list (rop A).
Implicit Types hp : heap A.

Inductive ev_gin : ev A -> ev A -> Prop :=
  | eg_same e : ev_gin e e
  | eg_route r m p q hs : pat_gin p q -> ev_gin (ERoute r m p hs) (ERoute r m q hs).

(** the same but for the recorded URI *)
Definition route_gin (a b : route A) : Prop :=
  rt_method a = rt_method b /\ rt_variant a = rt_variant b /\ rt_handlers a = rt_handlers b.
Definition mrouter_gin (a b : mrouter A) : Prop :=
  m_tree a = m_tree b /\ m_static a = m_static b /\ m_count a = m_count b /\
  (forall j, option_Forall2 route_gin (m_match a !! j) (m_match b !! j)).

Lemma add_route_gin static m m' v v' : mrouter_gin m m' -> route_gin v v' ->
  match add_route re_ok static m v, add_route re_ok static m' v' with
  | Ok a, Ok b => mrouter_gin a b
  | Ok _, _ => False
  | _, Ok _ => False
  | _, _ => True
  end.
Proof.
  intros (T & S & C & M) Hv. pose proof Hv as (_ & V & H). unfold add_route. rewrite T, V, H, S, C.
  destruct (add re_ok _ _ _ _) as [[[t e] k]| |]; cbn [rbind]; [|done|done].
  split_and!; try done. intros j. cbn [m_match]. destruct (decide (j = e_id e)) as [->|Hne].
  - rewrite !lookup_insert. constructor. done.
  - rewrite !lookup_insert_ne by done. apply M.
Qed.
Lemma buildTree_gin static l l' : Forall2 route_gin l l' -> forall ms ms' x y, Forall2 mrouter_gin ms ms' ->
  buildTree re_ok static ms l = Ok x -> buildTree re_ok static ms' l' = Ok y -> Forall2 mrouter_gin x y.
Proof.
  induction 1 as [|v v' l l' Hv Hl IH]; intros ms ms' x y Hms Hx Hy; cbn [buildTree] in Hx, Hy.
  - by simplify_eq.
  - rewrite <- (proj1 Hv) in Hy. destruct (MethodIndex (rt_method v)) as [i|]; [|done].
    destruct (ms !! i) as [m|] eqn:Hm; [|done]. destruct (Forall2_lookup_l _ _ _ _ _ Hms Hm) as (m' & Hm' & Hg).
    rewrite Hm' in Hy. apply rbind_ok in Hx as (a & Ha & Hx). apply rbind_ok in Hy as (b & Hb & Hy).
    pose proof (add_route_gin static _ _ _ _ Hg Hv) as Hab. rewrite Ha, Hb in Hab.
    eapply IH; [|exact Hx|exact Hy]. by apply Forall2_insert.
Qed.

Section Pair.
Variables h h' : list (ev A).
Hypothesis Hg : Forall2 ev_gin h h'.

Lemma gin_creations : Forall2 ev_gin (creations h) (creations h').
Proof.
  unfold creations. apply Forall2_filter; [done|]. intros x y []; done.
Qed.
Lemma gin_lookup r c : creations h !! r = Some c -> exists c', creations h' !! r = Some c' /\ ev_gin c c'.
Proof. intros Hc. apply (Forall2_lookup_l _ _ _ _ _ gin_creations Hc). Qed.
Lemma gin_lookup_r r c : creations h' !! r = Some c -> exists c', creations h !! r = Some c' /\ ev_gin c' c.
Proof. intros Hc. apply (Forall2_lookup_r _ _ _ _ _ gin_creations Hc). Qed.
Lemma gin_parent c c' : ev_gin c c' -> parent_of c = parent_of c'.
Proof. by destruct 1. Qed.
Lemma gin_lineage l path : lineage h l path <-> lineage h' l path.
Proof.
  split; induction 1 as [r Hr|r c p path Hc Hp Hl IH].
  - apply gin_lookup in Hr as (c' & Hc' & Hx). inversion Hx; subst. by constructor.
  - apply gin_lookup in Hc as (c' & Hc' & Hx). econstructor; [done| |done]. by rewrite <- (gin_parent _ _ Hx).
  - apply gin_lookup_r in Hr as (c' & Hc' & Hx). inversion Hx; subst. by constructor.
  - apply gin_lookup_r in Hc as (c' & Hc' & Hx). econstructor; [done| |done]. by rewrite (gin_parent _ _ Hx).
Qed.
Lemma gin_is_route l m : is_route h l m <-> is_route h' l m.
Proof.
  split; intros (p & pat & hs & Hc).
  - apply gin_lookup in Hc as (c' & Hc' & Hx). inversion Hx; subst; eexists _, _, _; exact Hc'.
  - apply gin_lookup_r in Hc as (c' & Hc' & Hx). inversion Hx; subst; eexists _, _, _; exact Hc'.
Qed.
Lemma gin_mws r : mws h r = mws h' r.
Proof. unfold mws. induction Hg as [|x y l k Hxy Hlk IH]; simpl; [done|]. rewrite IH by done. by destruct Hxy. Qed.
Lemma gin_befores r : befores h r = befores h' r.
Proof. unfold befores. induction Hg as [|x y l k Hxy Hlk IH]; simpl; [done|]. rewrite IH by done. by destruct Hxy. Qed.
Lemma gin_chain path l : chain h path l = chain h' path l.
Proof.
  unfold chain. f_equal; [destruct path; [done|apply gin_befores]|]. f_equal.
  - f_equal. apply map_ext. apply gin_mws.
  - destruct (creations h !! l) as [c|] eqn:Hc.
    + apply gin_lookup in Hc as (c' & -> & Hx). by destruct Hx.
    + destruct (creations h' !! l) as [c|] eqn:Hc'; [|done]. apply gin_lookup_r in Hc' as (c' & Hc' & _). congruence.
Qed.
Lemma gin_leaves r ls : leaves h r ls <-> leaves h' r ls.
Proof.
  unfold leaves. assert (Hlt : forall x y, ltl h x y <-> ltl h' x y).
  { intros x y. unfold ltl. split; intros (p & q & Hp & Hq & Hl); exists p, q;
      [rewrite <- !gin_lineage|rewrite !gin_lineage]; done. }
  split; intros [He Hs]; (split; [|eapply sorted_impl; [|exact Hs]; intros x y; apply Hlt]); intros l; rewrite He.
  - split; intros [[m Hm] [p Hp]]; (split; [exists m|exists p]); by apply gin_is_route || by apply gin_lineage.
  - split; intros [[m Hm] [p Hp]]; (split; [exists m|exists p]); by apply gin_is_route || by apply gin_lineage.
Qed.
(** the URI of a route: what precedes its own pattern is untouched *)
Lemma gin_uri l m path : wf h -> is_route h l m -> lineage h l path -> exists pre p q,
  full_uri h path = pre ++ trim_space p /\ full_uri h' path = pre ++ trim_space q /\ pat_gin p q.
Proof.
  intros Hw Hr Hl. destruct Hr as (p & pat & hs & Hc). inversion Hl as [? Hn|? c p' path' Hc' Hp Hl']; subst; [congruence|].
  rewrite Hc in Hc'. inversion Hc'; subst c. simpl in Hp. inversion Hp; subst p'. clear Hc' Hp.
  destruct (gin_lookup _ _ Hc) as (c' & Hc' & Hx).
  assert (exists q, c' = ERoute p m q hs /\ pat_gin pat q) as (q & -> & Hq).
  { inversion Hx; subst; eexists; (split; [reflexivity|]); [by left|done]. }
  exists (full_uri h path'), pat, q. unfold full_uri. rewrite !map_app, !concat_app. simpl. rewrite Hc, Hc'. simpl.
  rewrite !app_nil_r. split_and!; [done| |done]. f_equal. f_equal. apply map_ext_in. intros x Hx'. apply elem_of_list_In in Hx'.
  (* nothing above is a route *)
  assert (Hnr : forall path, lineage h p path -> forall x, x ∈ path -> forall c, creations h !! x = Some c ->
            (forall a b d f, c <> ERoute a b d f)).
  { assert (Hpar : forall i c, creations h !! i = Some c -> forall r, parent_of c = Some r ->
       exists e, creations h !! r = Some e /\ (forall a b d f, e <> ERoute a b d f)).
    { intros i c Hi r Hr. destruct (wf_parent h Hw _ _ _ Hi Hr) as (_ & e & He & Hn). exists e. split; [done|].
      intros a b d f ->. simpl in Hn. done. }
    assert (Hp : forall a b d f, creations h !! p <> Some (ERoute a b d f)).
    { intros a b d f Hbad. destruct (Hpar _ _ Hc p eq_refl) as (e & He & Hn). rewrite Hbad in He. inversion He; subst. by eapply Hn. }
    clear - Hpar Hp. intros path Hl. induction Hl as [r Hr|r c r' path Hc Hr Hl IH]; intros y Hy c0 Hc0.
    - apply elem_of_list_singleton in Hy as ->. intros a b d f ->. by apply (Hp a b d f).
    - apply elem_of_app in Hy as [Hy|Hy].
      + eapply IH; [|done|done]. intros a b d f Hbad. destruct (Hpar _ _ Hc _ Hr) as (e & He & Hn). rewrite Hbad in He. inversion He; subst. by eapply Hn.
      + apply elem_of_list_singleton in Hy as ->. intros a b d f ->. by apply (Hp a b d f). }
  destruct (creations h !! x) as [c|] eqn:Hcx.
  - destruct (gin_lookup _ _ Hcx) as (c' & -> & Hg'). destruct Hg'; [done|]. exfalso. by eapply (Hnr _ Hl' x Hx' _ Hcx).
  - destruct (creations h' !! x) as [c|] eqn:Hcx'; [|done]. apply gin_lookup_r in Hcx' as (c' & ? & _). congruence.
Qed.
End Pair.

Lemma opts_give_fun gb (opts : list (opt A)) a b : opts_give gb opts a -> opts_give gb opts b -> a = b.
Proof. intros Ha Hb. apply options_step_iff in Ha, Hb. congruence. Qed.
Lemma legal_rooted u : legal_uri u -> exists t, u = "/"%char :: t.
Proof. intros [->|[? _]]; [by exists []|done]. Qed.

Lemma gin_engines ops ops' hp hp' r opts mem e e' m m' :
  run_ops ops [] = Ok hp -> run_ops ops' [] = Ok hp' -> Forall2 ev_gin (history ops) (history ops') ->
  Handler re_ok hp r opts mem = (Ok e, m) -> Handler re_ok hp' r opts mem = (Ok e', m') ->
  Forall2 route_gin (rs_slice (en_store e)) (rs_slice (en_store e')) /\
  Forall2 mrouter_gin (en_routers e) (en_routers e') /\ en_options e = en_options e'.
Proof.
  intros Hr Hr' Hg Hh Hh'. apply run_heap in Hr as [-> Hw]. apply run_heap in Hr' as [-> Hw'].
  set (h := history ops) in *. set (h' := history ops') in *.
  pose proof Hh as Hb. apply Handler_built in Hb as (Hreg & Hb & _); [|done].
  pose proof Hh' as Hb'. apply Handler_built in Hb' as (Hreg' & Hb' & _); [|done].
  destruct (bu_store _ _ _ _ _ Hb) as (ls & Hls & Hf). destruct (bu_store _ _ _ _ _ Hb') as (ls' & Hls' & Hf').
  apply (gin_leaves h h' Hg) in Hls. rewrite (leaves_unique _ _ _ _ Hls' Hls) in Hf'.
  assert (Hs : Forall2 route_gin (rs_slice (en_store e)) (rs_slice (en_store e'))).
  { apply Forall2_same_length_lookup_2.
    - rewrite <- (Forall2_length _ _ _ Hf), <- (Forall2_length _ _ _ Hf'). done.
    - intros i a b Ha Hb1. destruct (Forall2_lookup_r _ _ _ _ _ Hf Ha) as (l & Hl & Hra).
      pose proof (Forall2_lookup_lr _ _ _ _ _ _ Hf' Hl Hb1) as Hrb.
      destruct Hra as (p & mm & Lp & Mp & M & U & V & N & C). destruct Hrb as (p' & mm' & Lp' & Mp' & M' & U' & V' & N' & C').
      apply (gin_lineage h h' Hg) in Lp'. rewrite (lineage_fun _ _ _ _ Lp' Lp) in *. clear Lp'.
      apply (gin_is_route h h' Hg) in Mp'. pose proof Mp as (? & ? & ? & Hc). pose proof Mp' as (? & ? & ? & Hc').
      rewrite Hc in Hc'. inversion Hc'; subst.
      split_and!; [done| |rewrite <- (gin_chain h h' Hg) in C'; by eapply converts_all_fun].
      destruct (gin_uri h h' Hg l _ p Hw Mp Lp) as (pre & x & y & Hx & Hy & Hxy).
      rewrite V, V', Hx, Hy. apply variant_gin; [done|].
      assert (l ∈ ls) as Hin by (by eapply elem_of_list_lookup_2). apply (gin_leaves h h' Hg) in Hls. apply Hls in Hin as [_ [q Hq]].
      pose proof (lineage_fun _ _ _ _ Hq Lp) as <-.
      pose proof (rg_legal _ _ _ _ Hreg _ _ _ Mp Hq) as [Hlu _]. rewrite Hx in Hlu.
      apply legal_rooted in Hlu as [t Ht]. destruct pre as [|c pre]; [by left|]. right. simpl in Ht. inversion Ht; subst. eauto. }
  assert (Ho : en_options e = en_options e').
  { pose proof (bu_opts _ _ _ _ _ Hb) as H1. pose proof (bu_opts _ _ _ _ _ Hb') as H2. rewrite <- (gin_befores h h' Hg) in H2.
    by eapply opts_give_fun. }
  split_and!; [done| |done].
  rewrite Handler_collect in Hh, Hh'. destruct (collect (heap_of h) r opts) as [[o rs]| |]; [|done|done].
  destruct (collect (heap_of h') r opts) as [[o' rs']| |]; [|done|done].
  apply (f_equal fst) in Hh as Hbt. apply (f_equal fst) in Hh' as Hbt'. cbn [fst] in Hbt, Hbt'.
  apply rbind_ok in Hbt as (ms & Hbt & He). apply rbind_ok in Hbt' as (ms' & Hbt' & He'). inversion He; subst e. inversion He'; subst e'.
  simpl in *. subst o'. eapply buildTree_gin; [exact Hs| |exact Hbt|exact Hbt'].
  apply Forall2_same_length_lookup_2; [done|]. intros i a b Ha Hb1. rewrite Ha in Hb1. inversion Hb1; subst b.
  apply elem_of_list_lookup_2 in Ha. apply elem_of_replicate in Ha as [-> _]. split_and!; try done.
  intros j. simpl. rewrite lookup_empty. constructor.
Qed.
End Gin.
