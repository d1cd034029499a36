(** The preconditions that net/http checks, for tags in the form of RFC 7232. *)
From Verif Require Import Base GoStr GoStrFacts Header Ctx NetServe CondSpec NetServeFacts TagSpec.
Local Open Scope Z_scope.

(** ** White space *)
Definition rt (s : gostr) : gostr := rev (drop_while ascii_space (rev s)).
Lemma trim_rt s : TrimString s = rt (drop_while ascii_space s).
Proof. reflexivity. Qed.
Lemma blank_space a : blank a -> ascii_space a = true.
Proof. by intros [->| ->]. Qed.
Lemma drop_blanks w s : Forall blank w -> drop_while ascii_space (w ++ s) = drop_while ascii_space s.
Proof. induction 1 as [|a w Ha _ IH]; [done|]. cbn [app drop_while]. by rewrite blank_space. Qed.
Lemma drop_solid a s : ascii_space a = false -> drop_while ascii_space (a :: s) = a :: s.
Proof. intros H. cbn. by rewrite H. Qed.
Lemma drop_while_idem s : drop_while ascii_space (drop_while ascii_space s) = drop_while ascii_space s.
Proof. induction s as [|a s IH]; [done|]. cbn [drop_while]. destruct (ascii_space a) eqn:E; [done|]. by rewrite drop_solid. Qed.
Lemma rt_idem s : rt (rt s) = rt s.
Proof. unfold rt. by rewrite rev_involutive, drop_while_idem. Qed.
Lemma rt_solid x a s : ascii_space a = false -> rt (x ++ a :: s) = x ++ a :: rt s.
Proof.
  intros Ha. unfold rt. rewrite rev_app_distr. cbn [rev]. rewrite <- app_assoc. cbn [app].
  generalize (rev s) as u. induction u as [|b u IH]; cbn [app drop_while].
  - rewrite Ha. cbn [rev]. by rewrite rev_involutive.
  - destruct (ascii_space b); [done|]. cbn [rev]. rewrite rev_app_distr. cbn [rev]. by rewrite rev_involutive, <- !app_assoc.
Qed.
Lemma rt_blank w : Forall blank w -> rt w = [].
Proof.
  intros H. unfold rt. assert (Forall blank (rev w)) as H' by (by apply Forall_rev).
  rewrite <- (app_nil_r (rev w)), drop_blanks; done.
Qed.
Lemma split_blank s : (forall a, a ∈ s -> ascii_space a = true) \/ exists x a y, s = x ++ a :: y /\ ascii_space a = false /\ (forall b, b ∈ x -> ascii_space b = true).
Proof.
  induction s as [|a s [IH|(x & b & y & -> & H1 & H2)]].
  - left. by intros a ?%elem_of_nil.
  - destruct (ascii_space a) eqn:E.
    + left. intros b [->|Hb]%elem_of_cons; [done|by apply IH].
    + right. exists [], a, s. split; [done|]. split; [done|]. by intros b ?%elem_of_nil.
  - destruct (ascii_space a) eqn:E.
    + right. exists (a :: x), b, y. split; [done|]. split; [done|]. intros c [->|Hc]%elem_of_cons; [done|by apply H2].
    + right. exists [], a, (x ++ b :: y). split; [done|]. split; [done|]. by intros c ?%elem_of_nil.
Qed.
Lemma drop_spaces x s : (forall b, b ∈ x -> ascii_space b = true) -> drop_while ascii_space (x ++ s) = drop_while ascii_space s.
Proof.
  induction x as [|a x IH]; intros H; [done|]. cbn [app drop_while]. rewrite (H a) by left. apply IH. intros b Hb. apply H. by right.
Qed.
Lemma trim_of_rt s : TrimString (rt s) = TrimString s.
Proof.
  destruct (split_blank s) as [H|(x & a & y & -> & Ha & Hx)].
  - assert (forall u, (forall a, a ∈ u -> ascii_space a = true) -> drop_while ascii_space u = []) as Hd.
    { intros u Hu. rewrite <- (app_nil_r u), drop_spaces; done. }
    unfold TrimString, rt. rewrite (Hd s H), (Hd (rev s)); [done|]. intros a Ha. apply H. by apply elem_of_list_In, in_rev, elem_of_list_In.
  - rewrite (rt_solid _ _ _ Ha), !trim_rt, !drop_spaces, !drop_solid by done.
    change (a :: rt y) with ([] ++ a :: rt y). change (a :: y) with ([] ++ a :: y). by rewrite !rt_solid, rt_idem by done.
Qed.
Lemma scan_list_rt m fuel s : scan_list m fuel (rt s) = scan_list m fuel s.
Proof. destruct fuel; [done|]. cbn [scan_list]. by rewrite trim_of_rt. Qed.
Lemma trim_at w a s : Forall blank w -> ascii_space a = false -> TrimString (w ++ a :: s) = a :: rt s.
Proof. intros Hw Ha. rewrite trim_rt, drop_blanks, drop_solid by done. exact (rt_solid [] a s Ha). Qed.

(** ** Tags *)
Lemma etagc_char a : etagc a -> etag_char a = true.
Proof.
  unfold etagc, etag_char. rewrite !orb_true_iff, andb_true_iff, N.eqb_eq, !N.leb_le. lia.
Qed.
Lemma scan_text_app o r : Forall etagc o -> scan_text (o ++ """"%char :: r) = Some (o ++ L """", r).
Proof.
  induction 1 as [|a o Ha _ IH]; [done|]. cbn [app scan_text]. by rewrite etagc_char, IH.
Qed.
(** the first byte of a tag, and what scanning makes of a tag and what follows *)
Lemma tag_head weak o : exists a s, tag_of weak o = a :: s /\ ascii_space a = false /\ Ascii.eqb a "," = false /\ Ascii.eqb a "*" = false.
Proof. destruct weak; (eexists _, _; split; [reflexivity|done]). Qed.
Lemma scan_tag weak o r : Forall etagc o -> rt (tag_of weak o ++ r) = tag_of weak o ++ r ->
  scanETag (tag_of weak o ++ r) = (tag_of weak o, r).
Proof.
  intros Ho Hr. unfold scanETag. destruct (tag_head weak o) as (a & s & E & Ha & _).
  assert (TrimString (tag_of weak o ++ r) = tag_of weak o ++ r) as ->.
  { rewrite trim_rt. transitivity (rt (tag_of weak o ++ r)); [|done]. f_equal. rewrite E. cbn [app]. by apply drop_solid. }
  cbv zeta. clear Hr E. assert (forall w, tag_of w o ++ r = (if w then L "W/" else []) ++ """"%char :: (o ++ """"%char :: r)) as E.
  { intros w. unfold tag_of. by rewrite <- !app_assoc. }
  rewrite (E weak). destruct weak.
  - change (has_prefix (L "W/") (L "W/" ++ """"%char :: (o ++ """"%char :: r))) with true. cbv iota.
    change (drop 2 (L "W/" ++ """"%char :: (o ++ """"%char :: r))) with (""""%char :: (o ++ """"%char :: r)).
    change (Ascii.eqb """" """") with true. cbv iota. by rewrite scan_text_app.
  - change (has_prefix (L "W/") ([] ++ """"%char :: (o ++ """"%char :: r))) with false. cbv iota.
    change (drop 0 ([] ++ """"%char :: (o ++ """"%char :: r))) with (""""%char :: (o ++ """"%char :: r)).
    change (Ascii.eqb """" """") with true. cbv iota. by rewrite scan_text_app.
Qed.
(** a tag and what follows it, after trimming *)
Lemma rt_tag weak o s : rt (tag_of weak o ++ s) = tag_of weak o ++ rt s.
Proof.
  unfold tag_of. rewrite <- !app_assoc. change (L """" ++ s) with (""""%char :: s). change (L """" ++ rt s) with (""""%char :: rt s).
  rewrite !(app_assoc _ o), !(app_assoc _ (_ ++ o)). by apply rt_solid.
Qed.
Lemma trim_tag w weak o s : Forall blank w -> TrimString (w ++ tag_of weak o ++ s) = tag_of weak o ++ rt s.
Proof.
  intros Hw. rewrite trim_rt, drop_blanks by done. destruct (tag_head weak o) as (a & u & E & Ha & _). rewrite <- rt_tag.
  f_equal. rewrite E. cbn [app]. by apply drop_solid.
Qed.
Lemma scan_step m fuel w weak o s : Forall blank w -> Forall etagc o ->
  scan_list m (S fuel) (w ++ tag_of weak o ++ s) = if m (tag_of weak o) then Some true else scan_list m fuel s.
Proof.
  intros Hw Ho. cbn [scan_list]. rewrite trim_tag by done.
  pose proof (scan_tag weak o (rt s) Ho) as Hs. rewrite rt_tag, rt_idem in Hs. specialize (Hs eq_refl).
  destruct (tag_head weak o) as (a & u & E & Ha & E1 & E2). rewrite E in Hs |- *. cbn [app] in Hs |- *. rewrite E1, E2, Hs. by rewrite scan_list_rt.
Qed.
Lemma scan_comma m fuel w s : Forall blank w -> scan_list m (S fuel) (w ++ L "," ++ s) = scan_list m fuel s.
Proof.
  intros Hw. cbn [scan_list]. change (L "," ++ s) with (","%char :: s). rewrite trim_at by done. cbn. by rewrite scan_list_rt.
Qed.
Lemma scan_blank m fuel w : Forall blank w -> scan_list m (S fuel) w = Some false.
Proof.
  intros Hw. cbn [scan_list]. assert (TrimString w = []) as ->; [|done]. rewrite trim_rt. rewrite <- (app_nil_r w), drop_blanks; done.
Qed.
Lemma tag_length weak o : (2 <= length (tag_of weak o))%nat.
Proof. unfold tag_of. rewrite !app_length. destruct weak; change (length (L """")) with 1%nat; lia. Qed.
Lemma scan_tags m ts s : tag_list ts s -> forall fuel, (length s < fuel)%nat -> scan_list m fuel s = Some (existsb m ts).
Proof.
  induction 1 as [w Hw|w t w' Hw (weak & o & -> & Ho) Hw'|w ts s Hw Hs IH|w t w' ts s Hw (weak & o & -> & Ho) Hw' Hs IH]; intros fuel Hf;
    (destruct fuel as [|fuel]; [lia|]).
  - by apply scan_blank.
  - rewrite scan_step by done. rewrite !app_length in Hf. pose proof (tag_length weak o). destruct fuel as [|fuel]; [lia|].
    rewrite scan_blank by done. cbn [existsb]. by destruct (m _).
  - rewrite scan_comma by done. apply IH. rewrite !app_length in Hf. change (length (L ",")) with 1%nat in Hf. lia.
  - rewrite scan_step by done. rewrite !app_length in Hf. change (length (L ",")) with 1%nat in Hf. pose proof (tag_length weak o).
    destruct fuel as [|fuel]; [lia|]. cbn [existsb]. destruct (m _); [done|]. rewrite scan_comma by done. apply IH. lia.
Qed.
Lemma list_tags ts s : tag_list ts s -> Forall entity_tag ts.
Proof. induction 1; by repeat constructor. Qed.

(** ** Comparisons *)
Lemma weak_match w w' o o' : etagWeakMatch (tag_of w o) (tag_of w' o') = seqb (tag_of false o) (tag_of false o').
Proof. unfold etagWeakMatch. by destruct w, w'. Qed.
Lemma tag_inj o o' : tag_of false o = tag_of false o' -> o = o'.
Proof.
  unfold tag_of. cbn [app]. intros E. change (L """") with [""""%char] in E. cbn [app] in E. injection E as E. by apply app_inj_tail in E as [? _].
Qed.
Lemma weakly_spec T t : entity_tag T -> entity_tag t -> etagWeakMatch t T = true <-> weakly T t.
Proof.
  intros (w & o & -> & _) (w' & o' & -> & _). rewrite weak_match, seqb_true. split.
  - intros E%tag_inj. subst. by exists w, w', o.
  - intros (v & v' & u & E1 & E2). assert (forall a b x y, tag_of a x = tag_of b y -> x = y) as Hi.
    { intros a b x y E. apply (f_equal (trim_prefix (L "W/"))) in E. apply tag_inj. by destruct a, b. }
    apply Hi in E1, E2. by subst.
Qed.
Lemma strongly_spec T t : entity_tag T -> entity_tag t -> etagStrongMatch t T = true <-> strongly T t.
Proof.
  intros (w & o & -> & _) (w' & o' & -> & _). unfold etagStrongMatch. rewrite andb_true_iff, seqb_true. split.
  - intros [E H]. destruct w'; [done|]. exists o'. by rewrite <- E.
  - intros (u & -> & E). by rewrite E.
Qed.
Lemma exists_match (m : gostr -> bool) (P : gostr -> Prop) ts : (forall t, entity_tag t -> m t = true <-> P t) -> Forall entity_tag ts ->
  existsb m ts = true <-> exists t, t ∈ ts /\ P t.
Proof.
  intros Hm Hts. rewrite existsb_exists. rewrite Forall_forall in Hts. split.
  - intros (t & Hin%elem_of_list_In & Ht). exists t. split; [done|]. apply Hm; [by apply Hts|done].
  - intros (t & Hin & Ht). exists t. split; [by apply elem_of_list_In|]. apply Hm; [by apply Hts|done].
Qed.
Lemma star_no_list ts : ~ tag_list ts (L "*").
Proof.
  intros H. pose proof (scan_tags (fun _ => false) ts _ H 2 ltac:(vm_compute; lia)) as E.
  assert (existsb (fun _ : gostr => false) ts = false) as E2 by (clear; by induction ts). rewrite E2 in E. vm_compute in E. discriminate E.
Qed.
(** whether a header has the star or a tag that matches *)
Lemma header_scan (m : gostr -> bool) (P : gostr -> Prop) s : (forall t, entity_tag t -> m t = true <-> P t) -> tag_header s -> s <> [] ->
  exists b, scan_list m (S (length s)) s = Some b /\ (b = true <-> names P s).
Proof.
  intros Hm [->|[->|(ts & Hts)]] Hne; [done| |].
  - exists true. split; [vm_compute; reflexivity|]. split; [by left|done].
  - exists (existsb m ts). split; [apply scan_tags; [done|lia]|]. rewrite (exists_match m P) by (first [done|by eapply list_tags]). split.
    + intros (t & Hin & Ht). right. by exists ts, t.
    + intros [->|(ts' & t & Hts' & Hin & Ht)]; [by apply star_no_list in Hts|].
      apply (exists_match m P); [done|by eapply list_tags|]. 
      assert (Some (existsb m ts) = Some (existsb m ts')) as E by (rewrite <- (scan_tags m ts s Hts (S (length s))), <- (scan_tags m ts' s Hts' (S (length s))) by lia; done).
      injection E as ->. apply (exists_match m P); [done|by eapply list_tags|]. by exists t.
Qed.

Section Facts.
Variable T : gostr.
Hypothesis HT : entity_tag T.
Variable parse_time : gostr -> option Z.
Hypothesis dates : forall s u, parse_time s = Some u -> """"%char ∉ s.

Lemma tag_if_match s : tag_header s -> s <> [] ->
  (names (strongly T) s /\ checkIfMatch s T = Some CTrue) \/ (~ names (strongly T) s /\ checkIfMatch s T = Some CFalse).
Proof.
  intros Hs Hne. unfold checkIfMatch. rewrite (proj2 (seqb_false _ _)) by done.
  destruct (header_scan (fun t => etagStrongMatch t T) (strongly T) s (fun t Ht => strongly_spec T t HT Ht) Hs Hne) as (b & -> & Hb).
  destruct b; [left; by rewrite <- Hb|right]. split; [|done]. intros H%Hb. done.
Qed.
Lemma tag_if_none_match s : tag_header s -> s <> [] ->
  (names (weakly T) s /\ checkIfNoneMatch s T = Some CFalse) \/ (~ names (weakly T) s /\ checkIfNoneMatch s T = Some CTrue).
Proof.
  intros Hs Hne. unfold checkIfNoneMatch. rewrite (proj2 (seqb_false _ _)) by done.
  destruct (header_scan (fun t => etagWeakMatch t T) (weakly T) s (fun t Ht => weakly_spec T t HT Ht) Hs Hne) as (b & -> & Hb).
  destruct b; [left; by rewrite <- Hb|right]. split; [|done]. intros H%Hb. done.
Qed.
(** If-Range: a tag, or a text without quotation marks *)
Lemma tag_if_range method h m : method = L "GET" \/ method = L "HEAD" ->
  entity_tag (h (L "If-Range")) \/ """"%char ∉ h (L "If-Range") ->
  (same_file parse_time T m h /\ checkIfRange parse_time method (h (L "If-Range")) T m <> CFalse) \/
  (~ same_file parse_time T m h /\ checkIfRange parse_time method (h (L "If-Range")) T m = CFalse).
Proof.
  intros Hm Hir. unfold checkIfRange, same_file. set (ir := h (L "If-Range")) in *.
  replace (negb (seqb method (L "GET")) && negb (seqb method (L "HEAD"))) with false by (destruct Hm as [->| ->]; reflexivity).
  destruct (seqb ir []) eqn:E; [apply seqb_true in E as ->; left; split; [by left|done]|]. apply seqb_false in E.
  assert (forall w o, """"%char ∈ tag_of w o) as Hq by (intros w o; apply elem_of_app; right; left).
  destruct Hir as [Hir|Hir].
  - pose proof Hir as (w & o & Ew & Ho). pose proof (scan_tag w o [] Ho) as Hs. rewrite rt_tag, app_nil_r in Hs. change (rt []) with (@nil ascii) in Hs.
    specialize (Hs (eq_sym (app_nil_r _))). rewrite app_nil_r in Hs. rewrite <- Ew in Hs. rewrite Hs. pose proof (strongly_spec T ir HT Hir) as Hst.
    destruct ir as [|a s]; [done|]. destruct (etagStrongMatch (a :: s) T) eqn:Em.
    + left. split; [right; left; by apply Hst|done].
    + right. split; [|done]. intros [?|[Hx%Hst|(t & _ & Hx%dates)]]; [done|done|]. apply Hx. rewrite Ew. apply Hq.
  - destruct (scanETag ir) as [t r] eqn:Es. destruct t as [|b t].
    2: { apply scan_spec in Es as (_ & _ & _ & Hx); [|done]. done. }
    assert (~ strongly T ir) as Hn by (intros (o & _ & Ho); apply Hir; rewrite Ho; apply Hq).
    destruct m as [m|]; [|right; split; [by intros [?|[?|(? & ? & _)]]|done]].
    destruct (parse_time ir) as [u|] eqn:Eu; [|right; split; [by intros [?|[?|(? & ? & ?)]]|done]].
    destruct (u =? m) eqn:Em; [left|right]; (split; [|done]).
    + apply Z.eqb_eq in Em as ->. right. right. by exists m.
    + apply Z.eqb_neq in Em. intros [?|[?|(? & [= <-] & [= <-])]]; done.
Qed.

Lemma tag_conditional r m : rq_method r = L "GET" \/ rq_method r = L "HEAD" ->
  let h := h_get (rq_header r) in
  tag_header (h (L "If-Match")) -> tag_header (h (L "If-None-Match")) -> entity_tag (h (L "If-Range")) \/ """"%char ∉ h (L "If-Range") ->
  exists a, as_answer (checkPreconditions parse_time r T m) = Some a /\ tag_answers parse_time T m h a.
Proof.
  intros Hm h H1 H2 H3. unfold checkPreconditions. fold h.
  set (rg := match h (L "Range") with [] => [] | (_ :: _) as rg => match checkIfRange parse_time (rq_method r) (h (L "If-Range")) T m with CFalse => [] | _ => rg end end).
  assert ((proceeds parse_time T m h /\ exists ch, checkIfMatch (h (L "If-Match")) T = Some ch /\
      (match ch with CNone => checkIfUnmodifiedSince parse_time (h (L "If-Unmodified-Since")) m | _ => ch end) <> CFalse) \/
    (~ proceeds parse_time T m h /\ exists ch, checkIfMatch (h (L "If-Match")) T = Some ch /\
      (match ch with CNone => checkIfUnmodifiedSince parse_time (h (L "If-Unmodified-Since")) m | _ => ch end) = CFalse)) as Hp.
  { unfold proceeds. destruct (decide (h (L "If-Match") = [])) as [E|E].
    - destruct (if_unmodified parse_time (h (L "If-Unmodified-Since")) m) as [[Hn Hu]|[Hn Hu]]; [right|left]; rewrite E.
      + split; [by intros [[? _]|[_ ?]]|]. by exists CNone.
      + split; [by right|]. by exists CNone.
    - destruct (tag_if_match _ H1 E) as [[Hn Hu]|[Hn Hu]]; [left|right]; rewrite Hu.
      + split; [by left|]. by exists CTrue.
      + split; [by intros [[_ ?]|[? _]]|]. by exists CFalse. }
  assert ((has_it parse_time T m h /\ exists nm, checkIfNoneMatch (h (L "If-None-Match")) T = Some nm /\
      (nm = CFalse \/ nm = CNone /\ checkIfModifiedSince parse_time (rq_method r) (h (L "If-Modified-Since")) m = CFalse)) \/
    (~ has_it parse_time T m h /\ exists nm, checkIfNoneMatch (h (L "If-None-Match")) T = Some nm /\
      (nm = CTrue \/ nm = CNone /\ checkIfModifiedSince parse_time (rq_method r) (h (L "If-Modified-Since")) m <> CFalse))) as Hn.
  { unfold has_it. destruct (decide (h (L "If-None-Match") = [])) as [E|E].
    - destruct (if_modified parse_time (rq_method r) (h (L "If-Modified-Since")) m Hm) as [[Hn Hu]|[Hn Hu]]; [left|right]; rewrite E.
      + split; [by right|]. exists CNone. split; [done|by right].
      + split; [by intros [[? _]|[_ ?]]|]. exists CNone. split; [done|by right].
    - destruct (tag_if_none_match _ H2 E) as [[Hn Hu]|[Hn Hu]]; [left|right]; rewrite Hu.
      + split; [by left|]. exists CFalse. split; [done|by left].
      + split; [by intros [[_ ?]|[? _]]|]. exists CTrue. split; [done|by left]. }
  destruct Hp as [(Hp & ch & -> & Hch)|(Hp & ch & -> & Hch)], Hn as [(Hn & nm & -> & Hnm)|(Hn & nm & -> & Hnm)]; cbv zeta iota.
  3,4: rewrite Hch; eexists; split; [reflexivity|by constructor].
  - exists NotModified. split; [|by constructor]. destruct Hnm as [->|[-> Hx]].
    + assert (seqb (rq_method r) (L "GET") || seqb (rq_method r) (L "HEAD") = true) as -> by (by destruct Hm as [->| ->]).
      destruct (match ch with CNone => _ | _ => _ end); done.
    + rewrite Hx. destruct (match ch with CNone => _ | _ => _ end); done.
  - exists (CondSpec.Content rg). split.
    + fold rg. destruct Hnm as [->|[-> Hx]].
      * destruct (match ch with CNone => _ | _ => _ end); done.
      * destruct (match ch with CNone => _ | _ => _ end); [..|done]; by destruct (checkIfModifiedSince _ _ _ _).
    + constructor; [done|done|..]; intros Hs; unfold rg; (destruct (tag_if_range _ h m Hm H3) as [[Hx Hy]|[Hx Hy]]; [|]); try done.
      * destruct (h (L "Range")); [done|]. by destruct (checkIfRange _ _ _ _ _).
      * rewrite Hy. by destruct (h (L "Range")).
Qed.
End Facts.

(** the answer is determined *)
Lemma tag_answers_fun parse_time T m h a b : entity_tag T ->
  (forall s u, parse_time s = Some u -> """"%char ∉ s) -> entity_tag (h (L "If-Range")) \/ """"%char ∉ h (L "If-Range") ->
  tag_answers parse_time T m h a -> tag_answers parse_time T m h b -> a = b.
Proof.
  intros HT Hd Hir Ha Hb. destruct Ha as [H1|H1 H2|rg H1 H2 H3 H4], Hb as [K1|K1 K2|rg' K1 K2 K3 K4]; try done. f_equal.
  destruct (tag_if_range T HT parse_time Hd (L "GET") h m (or_introl eq_refl) Hir) as [[Hs _]|[Hs _]]; [by rewrite H3, K3|by rewrite H4, K4].
Qed.
