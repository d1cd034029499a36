(** What servers make of any headers with tags, well-formed or not. *)
From Verif Require Import Base GoStr Header Ctx NetServe CondSpec NetServeFacts TagSpec TagFacts.
From Verif Require FrameFacts TagAnySpec.
Import TagAnySpec.
Local Open Scope Z_scope.

Lemma space_iff a : space a <-> ascii_space a = true.
Proof.
  unfold space, ascii_space. rewrite !orb_true_iff, !Ascii.eqb_eq. change (ascii_of_nat 9) with "009"%char. change (ascii_of_nat 10) with "010"%char.
  change (ascii_of_nat 13) with "013"%char. tauto.
Qed.
Lemma spaces_all w : Forall space w -> forall b, b ∈ w -> ascii_space b = true.
Proof. rewrite Forall_forall. intros H b Hb. by apply space_iff, H. Qed.
Lemma trim_spaces w s : Forall space w -> TrimString (w ++ s) = TrimString s.
Proof. intros Hw. rewrite !trim_rt, drop_spaces; [done|by apply spaces_all]. Qed.
Lemma scan_spaces m fuel w s : Forall space w -> scan_list m fuel (w ++ s) = scan_list m fuel s.
Proof. intros Hw. destruct fuel; [done|]. cbn [scan_list]. by rewrite trim_spaces. Qed.
Lemma trimmed s : exists w w', s = w ++ TrimString s ++ w' /\ Forall space w /\ Forall space w'.
Proof.
  destruct (FrameFacts.trim_parts s) as (w & w' & E & H1 & H2). exists w, w'. split; [done|].
  split; (eapply Forall_impl; [eassumption|]); intros a Ha; by apply space_iff.
Qed.
Lemma char_etagc a : etag_char a = true -> etagc a.
Proof. unfold etagc, etag_char. rewrite !orb_true_iff, andb_true_iff, N.eqb_eq, !N.leb_le. lia. Qed.
Lemma scan_text_tag s : forall t r, scan_text s = Some (t, r) -> exists o, t = o ++ L """" /\ Forall etagc o /\ s = t ++ r.
Proof.
  induction s as [|a s IH]; intros t r; cbn [scan_text]; [done|]. destruct (etag_char a) eqn:Ea.
  - destruct (scan_text s) as [[t' r']|]; [|done]. intros [= <- <-]. destruct (IH _ _ eq_refl) as (o & -> & Ho & ->). exists (a :: o).
    split_and!; [done| |done]. constructor; [by apply char_etagc|done].
  - destruct (Ascii.eqb a """") eqn:Eq; [|done]. apply Ascii.eqb_eq in Eq as ->. intros [= <- <-]. exists []. split_and!; [done|constructor|done].
Qed.
(** a tag that is scanned is there *)
Lemma scan_front s t r : scanETag s = (t, r) -> t <> [] -> entity_tag t /\ TrimString s = t ++ r.
Proof.
  unfold scanETag. set (u := TrimString s). intros H Hne.
  assert (exists st, (st = 0%nat \/ st = 2%nat /\ has_prefix (L "W/") u = true) /\
    match drop st u with
    | a :: s' => if Ascii.eqb a """" then match scan_text s' with Some (t, r) => (take st u ++ a :: t, r) | None => ([], []) end else ([], [])
    | [] => ([], [])
    end = (t, r)) as (st & Hst & H').
  { destruct (has_prefix (L "W/") u) eqn:E; [exists 2%nat|exists 0%nat]; (split; [|exact H]); [by right|by left]. }
  clear H. destruct (drop st u) as [|a s'] eqn:Ed; [by injection H' as <- _|]. destruct (Ascii.eqb a """") eqn:Ea; [|by injection H' as <- _].
  apply Ascii.eqb_eq in Ea as ->. destruct (scan_text s') as [[t' r']|] eqn:Es; [|by injection H' as <- _]. injection H' as <- <-.
  apply scan_text_tag in Es as (o & -> & Ho & ->).
  split; [|rewrite <- (take_drop st u) at 1; rewrite Ed, <- ?app_assoc; cbn [app]; rewrite <- ?app_assoc; done].
  destruct Hst as [->|[-> Hp]].
  - exists false, o. split; [|done]. done.
  - exists true, o. split; [|done]. pose proof (prefix_split _ _ Hp) as E. change (length (L "W/")) with 2%nat in E. rewrite E. done.
Qed.
Lemma scan_tag_any w t s : Forall space w -> entity_tag t -> exists r, scanETag (w ++ t ++ s) = (t, r).
Proof.
  intros Hw (weak & o & -> & Ho). exists (rt s).
  assert (scanETag (w ++ tag_of weak o ++ s) = scanETag (tag_of weak o ++ rt s)) as ->.
  { assert (forall a b, TrimString a = TrimString b -> scanETag a = scanETag b) as Hx by (intros a b E; unfold scanETag; by rewrite E).
    apply Hx. rewrite trim_spaces by done. rewrite <- rt_tag. by rewrite trim_of_rt. }
  apply scan_tag; [done|]. by rewrite rt_tag, rt_idem.
Qed.

Section Lists.
Variable m : gostr -> bool.
Variable P : gostr -> Prop.
Hypothesis HP : forall t, entity_tag t -> m t = true <-> P t.
Lemma reaches_app s x : reaches P s -> reaches P (s ++ x).
Proof using.
  induction 1; rewrite <- ?app_assoc; [by constructor|by apply re_tag|by apply re_comma|by apply re_next].
Qed.
Lemma reaches_scan s : reaches P s -> forall fuel, (length s < fuel)%nat -> scan_list m fuel s = Some true.
Proof using HP.
  induction 1 as [w s Hw|w t s Hw Ht Hp|w s Hw Hs IH|w t s Hw Ht Hs IH]; intros [|fuel] Hf; try lia; rewrite scan_spaces by done.
  - cbn [scan_list]. change (L "*" ++ s) with ("*"%char :: s). pose proof (trim_at [] "*"%char s ltac:(constructor) eq_refl) as E. cbn [app] in E. rewrite E. done.
  - pose proof Ht as (weak & o & E & Ho). rewrite E. pose proof (scan_step m fuel [] weak o s ltac:(constructor) Ho) as Es. cbn [app] in Es. rewrite Es, <- E.
    by rewrite (proj2 (HP t Ht) Hp).
  - pose proof (scan_comma m fuel [] s ltac:(constructor)) as Es. cbn [app] in Es. rewrite Es. apply IH. rewrite !app_length in Hf. change (length (L ",")) with 1%nat in Hf. lia.
  - pose proof Ht as (weak & o & E & Ho). rewrite E. pose proof (scan_step m fuel [] weak o s ltac:(constructor) Ho) as Es. cbn [app] in Es. rewrite Es.
    destruct (m (tag_of weak o)); [done|]. apply IH. rewrite !app_length, E in Hf. pose proof (tag_length weak o). lia.
Qed.
Lemma scan_reaches fuel : forall s, scan_list m fuel s = Some true -> reaches P s.
Proof using HP.
  induction fuel as [|fuel IH]; intros s; [done|]. cbn [scan_list]. destruct (trimmed s) as (w & w' & E & Hw & Hw'). intros H. rewrite E. clear E.
  destruct (TrimString s) as [|a u] eqn:Et; [done|]. rewrite app_assoc. apply reaches_app.
  destruct (Ascii.eqb a ",") eqn:E1; [|destruct (Ascii.eqb a "*") eqn:E2].
  - apply Ascii.eqb_eq in E1 as ->. apply (re_comma P w u Hw). by apply IH.
  - apply Ascii.eqb_eq in E2 as ->. exact (re_star P w u Hw).
  - destruct (scanETag (a :: u)) as [t r] eqn:Es. destruct t as [|b t]; [done|]. set (T0 := b :: t) in *.
    apply scan_front in Es as [Ht Eu]; [|done].
    assert (TrimString (a :: u) = a :: u) as Eid.
    { rewrite <- Et. destruct (trimmed s) as (v & v' & Ev & _). assert (TrimString s = rt (drop_while ascii_space s)) as -> by apply trim_rt.
      rewrite trim_of_rt, trim_rt. by rewrite drop_while_idem. }
    rewrite Eid in Eu. rewrite Eu. destruct (m T0) eqn:Em.
    + apply re_tag; [done|done|by apply HP].
    + apply re_next; [done|done|by apply IH].
Qed.
Lemma scan_any s : exists b, scan_list m (S (length s)) s = Some b /\ (b = true <-> reaches P s).
Proof using HP.
  destruct (scan_list m (S (length s)) s) as [b|] eqn:E; [|by apply scan_list_total in E; [|lia]]. exists b. split; [done|]. split.
  - intros ->. by eapply scan_reaches.
  - intros H. pose proof (reaches_scan s H (S (length s)) ltac:(lia)). congruence.
Qed.
End Lists.

Section Facts.
Variable T : gostr.
Hypothesis HT : entity_tag T.
Variable parse_time : gostr -> option Z.
Lemma any_if_match s : s <> [] ->
  (reaches (strongly T) s /\ checkIfMatch s T = Some CTrue) \/ (~ reaches (strongly T) s /\ checkIfMatch s T = Some CFalse).
Proof using HT.
  intros Hne. unfold checkIfMatch. rewrite (proj2 (seqb_false _ _)) by done.
  destruct (scan_any (fun t => etagStrongMatch t T) (strongly T) (fun t Ht => strongly_spec T t HT Ht) s) as (b & -> & Hb).
  destruct b; [left; by rewrite <- Hb|right]. split; [|done]. intros H%Hb. done.
Qed.
Lemma any_if_none_match s : s <> [] ->
  (reaches (weakly T) s /\ checkIfNoneMatch s T = Some CFalse) \/ (~ reaches (weakly T) s /\ checkIfNoneMatch s T = Some CTrue).
Proof using HT.
  intros Hne. unfold checkIfNoneMatch. rewrite (proj2 (seqb_false _ _)) by done.
  destruct (scan_any (fun t => etagWeakMatch t T) (weakly T) (fun t Ht => weakly_spec T t HT Ht) s) as (b & -> & Hb).
  destruct b; [left; by rewrite <- Hb|right]. split; [|done]. intros H%Hb. done.
Qed.
Lemma opens_scan s t : opens s t -> exists r, scanETag s = (t, r).
Proof using. intros (w & r & -> & Hw & Ht). by apply scan_tag_any. Qed.
Lemma scan_opens s t r : scanETag s = (t, r) -> t <> [] -> opens s t.
Proof using.
  intros Hs Hne. apply scan_front in Hs as [Ht E]; [|done]. destruct (trimmed s) as (w & w' & Es & Hw & _). exists w, (r ++ w').
  split; [|done]. rewrite Es, E at 1. by rewrite <- app_assoc.
Qed.
Lemma any_if_range method h m : method = L "GET" \/ method = L "HEAD" ->
  (any_same_file parse_time T m h /\ checkIfRange parse_time method (h (L "If-Range")) T m <> CFalse) \/
  (~ any_same_file parse_time T m h /\ checkIfRange parse_time method (h (L "If-Range")) T m = CFalse).
Proof using HT.
  intros Hm. unfold checkIfRange, any_same_file. set (ir := h (L "If-Range")) in *.
  replace (negb (seqb method (L "GET")) && negb (seqb method (L "HEAD"))) with false by (destruct Hm as [->| ->]; reflexivity).
  destruct (seqb ir []) eqn:E; [apply seqb_true in E as ->; left; split; [by left|done]|]. apply seqb_false in E.
  destruct (scanETag ir) as [t r] eqn:Es. destruct t as [|b t].
  - assert (forall t, ~ opens ir t) as Hno.
    { intros t Ht. pose proof Ht as (_ & _ & _ & _ & (w & o & Ew & _)). apply opens_scan in Ht as (r' & Hr). rewrite Es in Hr. injection Hr as <- _. by destruct w. }
    destruct m as [m|]; [|right; split; [|done]; intros [?|[(t & Ht & _)|(_ & ? & ? & _)]]; [done|by apply (Hno t)|done]].
    destruct (parse_time ir) as [u|] eqn:Eu; [|right; split; [|done]; intros [?|[(t & Ht & _)|(_ & ? & _ & ?)]]; [done|by apply (Hno t)|done]].
    destruct (u =? m) eqn:Em; [left|right]; (split; [|done]).
    + apply Z.eqb_eq in Em as ->. right. right. split; [done|]. by exists m.
    + apply Z.eqb_neq in Em. intros [?|[(t & Ht & _)|(_ & ? & [= <-] & [= <-])]]; [done|by apply (Hno t)|done].
  - set (t0 := b :: t) in *. pose proof (scan_opens _ _ _ Es ltac:(done)) as Ho.
    pose proof Ho as (_ & _ & _ & _ & Ht). pose proof (strongly_spec T t0 HT Ht) as Hst.
    destruct (etagStrongMatch t0 T) eqn:Em.
    + left. split; [|done]. right. left. exists t0. split; [done|by apply Hst].
    + right. split; [|done]. intros [?|[(t' & Ht' & Hs)|(Hno & _)]]; [done| |by apply (Hno t0)].
      apply opens_scan in Ht' as (r' & Hr). rewrite Es in Hr. injection Hr as <- _. by apply Hst in Hs.
Qed.
Lemma any_conditional r m : rq_method r = L "GET" \/ rq_method r = L "HEAD" ->
  let h := h_get (rq_header r) in
  exists a, as_answer (checkPreconditions parse_time r T m) = Some a /\ any_answers parse_time T m h a.
Proof.
  intros Hm h. unfold checkPreconditions. fold h.
  set (rg := match h (L "Range") with [] => [] | (_ :: _) as rg => match checkIfRange parse_time (rq_method r) (h (L "If-Range")) T m with CFalse => [] | _ => rg end end).
  assert ((any_proceeds parse_time T m h /\ exists ch, checkIfMatch (h (L "If-Match")) T = Some ch /\
      (match ch with CNone => checkIfUnmodifiedSince parse_time (h (L "If-Unmodified-Since")) m | _ => ch end) <> CFalse) \/
    (~ any_proceeds parse_time T m h /\ exists ch, checkIfMatch (h (L "If-Match")) T = Some ch /\
      (match ch with CNone => checkIfUnmodifiedSince parse_time (h (L "If-Unmodified-Since")) m | _ => ch end) = CFalse)) as Hp.
  { unfold any_proceeds. destruct (decide (h (L "If-Match") = [])) as [E|E].
    - destruct (if_unmodified parse_time (h (L "If-Unmodified-Since")) m) as [[Hn Hu]|[Hn Hu]]; [right|left]; rewrite E.
      + split; [by intros [[? _]|[_ ?]]|]. by exists CNone.
      + split; [by right|]. by exists CNone.
    - destruct (any_if_match _ E) as [[Hn Hu]|[Hn Hu]]; [left|right]; rewrite Hu.
      + split; [by left|]. by exists CTrue.
      + split; [by intros [[_ ?]|[? _]]|]. by exists CFalse. }
  assert ((any_has_it parse_time T m h /\ exists nm, checkIfNoneMatch (h (L "If-None-Match")) T = Some nm /\
      (nm = CFalse \/ nm = CNone /\ checkIfModifiedSince parse_time (rq_method r) (h (L "If-Modified-Since")) m = CFalse)) \/
    (~ any_has_it parse_time T m h /\ exists nm, checkIfNoneMatch (h (L "If-None-Match")) T = Some nm /\
      (nm = CTrue \/ nm = CNone /\ checkIfModifiedSince parse_time (rq_method r) (h (L "If-Modified-Since")) m <> CFalse))) as Hn.
  { unfold any_has_it. destruct (decide (h (L "If-None-Match") = [])) as [E|E].
    - destruct (if_modified parse_time (rq_method r) (h (L "If-Modified-Since")) m Hm) as [[Hn Hu]|[Hn Hu]]; [left|right]; rewrite E.
      + split; [by right|]. exists CNone. split; [done|by right].
      + split; [by intros [[? _]|[_ ?]]|]. exists CNone. split; [done|by right].
    - destruct (any_if_none_match _ E) as [[Hn Hu]|[Hn Hu]]; [left|right]; rewrite Hu.
      + split; [by left|]. exists CFalse. split; [done|by left].
      + split; [by intros [[_ ?]|[? _]]|]. exists CTrue. split; [done|by left]. }
  destruct Hp as [(Hp & ch & -> & Hch)|(Hp & ch & -> & Hch)], Hn as [(Hn & nm & -> & Hnm)|(Hn & nm & -> & Hnm)]; cbv zeta iota.
  3,4: rewrite Hch; eexists; split; [reflexivity|by constructor].
  - exists NotModified. split; [|by constructor]. destruct Hnm as [->|[-> Hx]].
    + assert (seqb (rq_method r) (L "GET") || seqb (rq_method r) (L "HEAD") = true) as -> by (by destruct Hm as [->| ->]).
      destruct (match ch with CNone => _ | _ => _ end); done.
    + rewrite Hx. destruct (match ch with CNone => _ | _ => _ end); done.
  - exists (CondSpec.Content rg). split.
    + fold rg. destruct Hnm as [->|[-> Hx]].
      * destruct (match ch with CNone => _ | _ => _ end); done.
      * destruct (match ch with CNone => _ | _ => _ end); [..|done]; by destruct (checkIfModifiedSince _ _ _ _).
    + constructor; [done|done|..]; intros Hs; unfold rg; (destruct (any_if_range _ h m Hm) as [[Hx Hy]|[Hx Hy]]; [|]); try done.
      * destruct (h (L "Range")); [done|]. by destruct (checkIfRange _ _ _ _ _).
      * rewrite Hy. by destruct (h (L "Range")).
Qed.
Lemma any_answers_fun m h a b : any_answers parse_time T m h a -> any_answers parse_time T m h b -> a = b.
Proof using HT.
  intros Ha Hb. destruct Ha as [H1|H1 H2|rg H1 H2 H3 H4], Hb as [K1|K1 K2|rg' K1 K2 K3 K4]; try done. f_equal.
  destruct (any_if_range (L "GET") h m (or_introl eq_refl)) as [[Hs _]|[Hs _]]; [by rewrite H3, K3|by rewrite H4, K4].
Qed.
End Facts.
