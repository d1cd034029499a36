(** The tags of water and the preconditions that net/http checks. *)
From Verif Require Import Base GoStr Strconv StrconvFacts UtilSpec Header Ctx Util Content Static NetServe CondSpec.
Local Open Scope Z_scope.

(** ** Scanning *)
Lemma drop_while_incl f s : (length (drop_while f s) <= length s)%nat /\ (forall a, a ∈ drop_while f s -> a ∈ s).
Proof.
  induction s as [|b s [IH1 IH2]]; cbn [drop_while]; [done|]. destruct (f b); [|done]. split; [cbn; lia|].
  intros a Ha. right. by apply IH2.
Qed.
Lemma trim_incl s : (length (TrimString s) <= length s)%nat /\ (forall a, a ∈ TrimString s -> a ∈ s).
Proof.
  unfold TrimString. destruct (drop_while_incl ascii_space s) as [H1 H2].
  destruct (drop_while_incl ascii_space (rev (drop_while ascii_space s))) as [H3 H4].
  rewrite rev_length in *. split; [lia|]. intros a Ha. apply H2.
  apply elem_of_list_In, in_rev, elem_of_list_In, H4, elem_of_list_In, in_rev, elem_of_list_In in Ha. done.
Qed.
Lemma scan_text_spec s : forall t r, scan_text s = Some (t, r) -> s = t ++ r /\ t <> [] /\ """"%char ∈ t.
Proof.
  induction s as [|a s IH]; intros t r; cbn [scan_text]; [done|]. destruct (etag_char a) eqn:Ea.
  - destruct (scan_text s) as [[t' r']|]; [|done]. intros [= <- <-]. destruct (IH _ _ eq_refl) as (-> & H1 & H2). split_and!; [done|done|by right].
  - destruct (Ascii.eqb a """") eqn:Eq; [|done]. apply Ascii.eqb_eq in Eq as ->. intros [= <- <-]. split_and!; [done|done|left].
Qed.
Lemma prefix_split p s : has_prefix p s = true -> s = p ++ drop (length p) s.
Proof.
  revert s. induction p as [|a p IH]; intros s; [done|]. destruct s as [|b s]; [done|]. cbn. rewrite andb_true_iff. intros [E H].
  apply Ascii.eqb_eq in E as ->. f_equal. by apply IH.
Qed.
Lemma scan_spec s e r : scanETag s = (e, r) -> e <> [] ->
  (exists x, trim_prefix (L "W/") e = """"%char :: x) /\ (length r < length s)%nat /\ (forall a, a ∈ r -> a ∈ s) /\ """"%char ∈ s.
Proof.
  unfold scanETag. destruct (trim_incl s) as [H1 H2]. set (s' := TrimString s) in *.
  assert (forall st, (st = 0%nat /\ has_prefix (L "W/") s' = false) \/ (st = 2%nat /\ has_prefix (L "W/") s' = true) ->
    match drop st s' with
    | a :: s'' => if Ascii.eqb a """" then
                 match scan_text s'' with
                 | Some (t, r) => (take st s' ++ a :: t, r)
                 | None => ([], [])
                 end
               else ([], [])
    | [] => ([], [])
    end = (e, r) -> e <> [] ->
    (exists x, trim_prefix (L "W/") e = """"%char :: x) /\ (length r < length s)%nat /\ (forall a, a ∈ r -> a ∈ s) /\ """"%char ∈ s) as Hgo.
  { intros st Hst. destruct (drop st s') as [|a s''] eqn:Ed; [intros [= <- <-]; done|].
    destruct (Ascii.eqb a """") eqn:Ea; [|intros [= <- <-]; done]. apply Ascii.eqb_eq in Ea as ->.
    destruct (scan_text s'') as [[t r']|] eqn:Es; [|intros [= <- <-]; done]. intros [= <- <-] _.
    apply scan_text_spec in Es as (-> & Hne & Hin).
    assert (s' = take st s' ++ """"%char :: t ++ r') as Hs by (by rewrite <- Ed, take_drop).
    split_and!.
    - destruct Hst as [[-> Hp]|[-> Hp]].
      + exists t. cbn. unfold trim_prefix. done.
      + exists t. pose proof (prefix_split _ _ Hp) as E. change (length (L "W/")) with 2%nat in E. rewrite E. change (take 2 (L "W/" ++ drop 2 s')) with (L "W/").
        done.
    - apply (f_equal length) in Hs. rewrite app_length in Hs. cbn in Hs. rewrite app_length in Hs. lia.
    - intros a Ha. apply H2. rewrite Hs. apply elem_of_app. right. right. apply elem_of_app. by right.
    - apply H2. rewrite Hs. apply elem_of_app. right. left. }
  destruct (has_prefix (L "W/") s') eqn:Hp; apply Hgo; [by right|by left].
Qed.

Lemma scan_list_total m fuel : forall buf, (length buf < fuel)%nat -> scan_list m fuel buf <> None.
Proof.
  induction fuel as [|fuel IH]; intros buf Hl; [lia|]. cbn [scan_list]. destruct (trim_incl buf) as [H1 _].
  destruct (TrimString buf) as [|a s]; [done|]. cbn [length] in H1. destruct (Ascii.eqb a ","); [apply IH; lia|].
  destruct (Ascii.eqb a "*"); [done|]. destruct (scanETag (a :: s)) as [t r] eqn:E. destruct t as [|b t]; [done|].
  destruct (m (b :: t)); [done|]. apply IH. apply scan_spec in E as (_ & H & _); [|done]. cbn in H. lia.
Qed.
Lemma scan_list_none m fuel : (forall t x, trim_prefix (L "W/") t = """"%char :: x -> m t = false) ->
  forall buf, (length buf < fuel)%nat -> "*"%char ∉ buf -> scan_list m fuel buf = Some false.
Proof.
  intros Hm. induction fuel as [|fuel IH]; intros buf Hl Hs; [lia|]. cbn [scan_list]. destruct (trim_incl buf) as [H1 H2].
  destruct (TrimString buf) as [|a s]; [done|]. cbn [length] in H1. destruct (Ascii.eqb a ",").
  { apply IH; [lia|]. intros Hin. apply Hs, H2. by right. }
  destruct (Ascii.eqb a "*") eqn:Ea. { apply Ascii.eqb_eq in Ea as ->. destruct Hs. apply H2. left. }
  destruct (scanETag (a :: s)) as [t r] eqn:E. destruct t as [|b t]; [done|].
  apply scan_spec in E as ([x Hx] & H & Hsub & _); [|done]. rewrite (Hm _ _ Hx). apply IH; [cbn in H; lia|].
  intros Hin. by apply Hs, H2, Hsub.
Qed.

(** ** The tags of water are not quoted *)
Definition tag_byte (a : ascii) : Prop := a = "-"%char \/ exists d, (d < 16)%N /\ a = digit_char d.
Lemma tag_byte_plain a : tag_byte a -> a <> """"%char /\ a <> "W"%char /\ a <> "*"%char.
Proof.
  intros [->|(d & Hd & ->)]; [done|]. assert (forall b, hex_val b = None -> digit_char d <> b) as H.
  { intros b Hb E. pose proof (digit_char_val d Hd) as H. rewrite E in H. congruence. }
  split_and!; by apply H.
Qed.
Lemma format_N_bytes n : Forall tag_byte (format_N 16 n).
Proof.
  apply Forall_forall. intros a Ha. unfold format_N in Ha. apply elem_of_list_fmap in Ha as (d & -> & Hin).
  destruct (digits_spec 16 n) as (_ & H & _); [lia|]. rewrite Forall_forall in H. right. exists d. split; [by apply H|done].
Qed.
Lemma format_Z_bytes z : Forall tag_byte (format_Z 16 z).
Proof. destruct z; cbn [format_Z]; [apply format_N_bytes..|constructor; [by left|apply format_N_bytes]]. Qed.
Lemma hex_bytes s : Forall tag_byte (hex_string s).
Proof.
  unfold hex_string. induction s as [|a s IH]; cbn [flat_map]; [done|]. apply Forall_app. split; [|done].
  pose proof (N_ascii_bounded a) as Hb. unfold hex_byte.
  constructor; [|constructor; [|done]]; right; eexists; (split; [|reflexivity]).
  - apply N.div_lt_upper_bound; lia.
  - apply N.mod_lt. lia.
Qed.
Lemma tag_bytes ty mtime size base : Forall tag_byte (static_tag ty mtime size base) /\ static_tag ty mtime size base <> [].
Proof.
  assert (forall z r, format_Z 16 z ++ "-"%char :: r <> []) as Hne by (intros z r; by destruct (format_Z 16 z)).
  unfold static_tag. destruct (ty =? 1)%nat; (split; [|apply Hne]).
  - apply Forall_app. split; [apply format_Z_bytes|]. constructor; [by left|apply format_Z_bytes].
  - apply Forall_app. split; [apply format_Z_bytes|]. constructor; [by left|]. apply Forall_app. split; [apply format_Z_bytes|].
    constructor; [by left|apply hex_bytes].
Qed.
Lemma tag_no_star ty mtime size base : "*"%char ∉ static_tag ty mtime size base.
Proof.
  intros Hin. destruct (tag_bytes ty mtime size base) as [H _]. rewrite Forall_forall in H. by apply H, tag_byte_plain in Hin as (_ & _ & ?).
Qed.
Lemma tag_no_quote ty mtime size base : """"%char ∉ static_tag ty mtime size base.
Proof.
  intros Hin. destruct (tag_bytes ty mtime size base) as [H _]. rewrite Forall_forall in H. by apply H, tag_byte_plain in Hin as (? & _).
Qed.

Section Facts.
Variable T : gostr.
Hypothesis HT : Forall tag_byte T.
Lemma no_strong t x : trim_prefix (L "W/") t = """"%char :: x -> etagStrongMatch t T = false.
Proof.
  intros Hx. unfold etagStrongMatch. destruct (seqb t T) eqn:E; [|done]. apply seqb_true in E as ->. destruct T as [|a T']; [done|].
  inversion HT as [|? ? Ha _]; subst. apply tag_byte_plain in Ha as (Ha & _). cbn. by apply Ascii.eqb_neq.
Qed.
Lemma no_weak t x : trim_prefix (L "W/") t = """"%char :: x -> etagWeakMatch t T = false.
Proof.
  intros Hx. unfold etagWeakMatch. rewrite Hx. apply seqb_false. destruct T as [|a T']; [done|].
  inversion HT as [|? ? Ha _]; subst. apply tag_byte_plain in Ha as (Ha & Hw & _).
  unfold trim_prefix. change (has_prefix (L "W/") (a :: T')) with (Ascii.eqb "W" a && has_prefix (L "/") T').
  replace (Ascii.eqb "W" a) with false by (symmetry; apply Ascii.eqb_neq; congruence). cbn. congruence.
Qed.

Variable parse_time : gostr -> option Z.
Hypothesis dates : forall s u, parse_time s = Some u -> """"%char ∉ s.

Lemma if_match im : tags_or_star im ->
  checkIfMatch im T = Some (if decide (im = []) then CNone else if decide (im = L "*") then CTrue else CFalse).
Proof.
  intros [Hs| ->]; [|vm_compute; reflexivity]. rewrite (decide_False (P := im = L "*")) by (intros ->; apply Hs; by left).
  unfold checkIfMatch. destruct (decide (im = [])) as [->|Hne]; [done|]. rewrite (proj2 (seqb_false _ _)) by done.
  rewrite scan_list_none; [done|apply no_strong|lia|done].
Qed.
Lemma if_none_match inm : tags_or_star inm ->
  checkIfNoneMatch inm T = Some (if decide (inm = []) then CNone else if decide (inm = L "*") then CFalse else CTrue).
Proof.
  intros [Hs| ->]; [|vm_compute; reflexivity]. rewrite (decide_False (P := inm = L "*")) by (intros ->; apply Hs; by left).
  unfold checkIfNoneMatch. destruct (decide (inm = [])) as [->|Hne]; [done|]. rewrite (proj2 (seqb_false _ _)) by done.
  rewrite scan_list_none; [done|apply no_weak|lia|done].
Qed.
Lemma if_unmodified ius m : (newer parse_time m ius /\ checkIfUnmodifiedSince parse_time ius m = CFalse) \/
  (~ newer parse_time m ius /\ checkIfUnmodifiedSince parse_time ius m <> CFalse).
Proof.
  unfold checkIfUnmodifiedSince, newer. destruct m as [m|]; [|right; split; [by intros (? & ? & ? & _)|done]].
  destruct (seqb ius []) eqn:E; [apply seqb_true in E as ->; right; split; [by intros (? & ? & ? & ? & _)|done]|]. apply seqb_false in E.
  destruct (parse_time ius) as [u|] eqn:Eu; [|right; split; [by intros (? & ? & ? & ? & ? & _)|done]].
  destruct (m <=? u) eqn:El; [right|left]; (split; [|done]).
  - apply Z.leb_le in El. intros (t & u' & [= <-] & _ & [= <-] & ?). lia.
  - apply Z.leb_gt in El. by exists m, u.
Qed.
Lemma if_modified method ims m : method = L "GET" \/ method = L "HEAD" ->
  (unchanged_since parse_time m ims /\ checkIfModifiedSince parse_time method ims m = CFalse) \/
  (~ unchanged_since parse_time m ims /\ checkIfModifiedSince parse_time method ims m <> CFalse).
Proof.
  intros Hm. unfold checkIfModifiedSince, unchanged_since.
  replace (negb (seqb method (L "GET")) && negb (seqb method (L "HEAD"))) with false by (destruct Hm as [->| ->]; reflexivity).
  destruct m as [m|]; [|right; split; [by intros (? & ? & ? & _)|done]].
  destruct (seqb ims []) eqn:E; [apply seqb_true in E as ->; right; split; [by intros (? & ? & ? & ? & _)|done]|]. apply seqb_false in E.
  destruct (parse_time ims) as [u|] eqn:Eu; [|right; split; [by intros (? & ? & ? & ? & ? & _)|done]].
  destruct (m <=? u) eqn:El; [left|right]; (split; [|done]).
  - apply Z.leb_le in El. by exists m, u.
  - apply Z.leb_gt in El. intros (t & u' & [= <-] & _ & [= <-] & ?). lia.
Qed.
Lemma if_range method ir m : method = L "GET" \/ method = L "HEAD" ->
  (in_range parse_time m ir /\ checkIfRange parse_time method ir T m <> CFalse) \/
  (~ in_range parse_time m ir /\ checkIfRange parse_time method ir T m = CFalse).
Proof.
  intros Hm. unfold checkIfRange, in_range.
  replace (negb (seqb method (L "GET")) && negb (seqb method (L "HEAD"))) with false by (destruct Hm as [->| ->]; reflexivity).
  destruct (seqb ir []) eqn:E; [apply seqb_true in E as ->; left; split; [by left|done]|]. apply seqb_false in E.
  destruct (scanETag ir) as [t r] eqn:Es. destruct t as [|b t].
  - destruct m as [m|]; [|right; split; [by intros [?|(? & ? & _)]|done]].
    destruct (parse_time ir) as [u|] eqn:Eu; [|right; split; [by intros [?|(? & ? & ?)]|done]].
    destruct (u =? m) eqn:Em; [left|right]; (split; [|done]).
    + apply Z.eqb_eq in Em as ->. right. by exists m.
    + apply Z.eqb_neq in Em. intros [?|(? & [= <-] & [= <-])]; done.
  - apply scan_spec in Es as ([x Hx] & _ & _ & Hq); [|done]. rewrite (no_strong _ _ Hx). right. split; [|done].
    intros [?|(u & _ & Hu)]; [done|]. by apply dates in Hu.
Qed.

Lemma checked_total r m : checkPreconditions parse_time r T m <> Stuck.
Proof.
  unfold checkPreconditions. set (im := h_get _ (L "If-Match")). set (inm := h_get _ (L "If-None-Match")).
  assert (checkIfMatch im T <> None) as H1.
  { unfold checkIfMatch. destruct (seqb im []); [done|]. pose proof (scan_list_total (fun t => etagStrongMatch t T) (S (length im)) im) as H.
    destruct (scan_list _ _ im); [done|]. exfalso. apply H; [lia|done]. }
  assert (checkIfNoneMatch inm T <> None) as H2.
  { unfold checkIfNoneMatch. destruct (seqb inm []); [done|]. pose proof (scan_list_total (fun t => etagWeakMatch t T) (S (length inm)) inm) as H.
    destruct (scan_list _ _ inm); [done|]. exfalso. apply H; [lia|done]. }
  destruct (checkIfMatch im T) as [ch|]; [|done]. destruct (checkIfNoneMatch inm T) as [nm|]; [|done]. clear H1 H2.
  cbn zeta. destruct ch, nm; repeat match goal with
    | |- context [match ?x with CNone => _ | CTrue => _ | CFalse => _ end] => destruct x
    | |- context [if ?x then _ else _] => destruct x
    end; done.
Qed.

(** what net/http makes of a request, if it does not name the tag itself *)
Definition as_answer (k : checked) : option answer :=
  match k with Failed => Some Precondition | Unmodified => Some NotModified | Go rg => Some (CondSpec.Content rg) | Stuck => None end.
Lemma conditional r m : rq_method r = L "GET" \/ rq_method r = L "HEAD" -> T <> [] ->
  tags_or_star (h_get (rq_header r) (L "If-Match")) -> tags_or_star (h_get (rq_header r) (L "If-None-Match")) ->
  h_get (rq_header r) (L "If-None-Match") <> T ->
  exists a, as_answer (checkPreconditions parse_time r T m) = Some a /\ answers parse_time T m (h_get (rq_header r)) a.
Proof.
  intros Hm HTn Hs1 Hs2 Hne. unfold checkPreconditions. rewrite if_match, if_none_match by done.
  set (h := h_get (rq_header r)) in *.
  assert (forall rg, passes parse_time m h -> h (L "If-None-Match") <> L "*" -> ((h (L "If-None-Match") = [] -> ~ unchanged_since parse_time m (h (L "If-Modified-Since"))) ->
    rg = match h (L "Range") with [] => [] | (_ :: _) as rg => match checkIfRange parse_time (rq_method r) (h (L "If-Range")) T m with CFalse => [] | _ => rg end end ->
    answers parse_time T m h (CondSpec.Content rg))) as Hgo.
  { intros rg Hp Hst Hsi ->. apply an_content; [done|done|done|done|..].
    - intros Hr. destruct (if_range _ (h (L "If-Range")) m Hm) as [[_ Hx]|[Hx _]]; [|done].
      destruct (h (L "Range")); [done|]. by destruct (checkIfRange _ _ _ _ _).
    - intros Hr. destruct (if_range _ (h (L "If-Range")) m Hm) as [[Hx _]|[_ ->]]; [done|]. by destruct (h (L "Range")). }
  assert (forall ch, passes parse_time m h -> ch <> CFalse ->
    exists a, as_answer (match ch with CFalse => Failed | _ =>
          match (if decide (h (L "If-None-Match") = []) then CNone else if decide (h (L "If-None-Match") = L "*") then CFalse else CTrue) with
          | CNone => match checkIfModifiedSince parse_time (rq_method r) (h (L "If-Modified-Since")) m with CFalse => Unmodified | _ => Go (match h (L "Range") with [] => [] | (_ :: _) as rg => match checkIfRange parse_time (rq_method r) (h (L "If-Range")) T m with CFalse => [] | _ => rg end end) end
          | CTrue => Go (match h (L "Range") with [] => [] | (_ :: _) as rg => match checkIfRange parse_time (rq_method r) (h (L "If-Range")) T m with CFalse => [] | _ => rg end end)
          | CFalse => if seqb (rq_method r) (L "GET") || seqb (rq_method r) (L "HEAD") then Unmodified else Failed
          end end) = Some a /\ answers parse_time T m h a) as Hrest.
  { intros ch Hp Hch. destruct (decide (h (L "If-None-Match") = [])) as [Hi|Hi]; [|destruct (decide (h (L "If-None-Match") = L "*")) as [Hst|Hst]].
    - assert (h (L "If-None-Match") <> L "*") as Hst by (rewrite Hi; done).
      destruct (if_modified _ (h (L "If-Modified-Since")) m Hm) as [[Hu Hx]|[Hu Hx]].
      + rewrite Hx. destruct ch; [eexists; split; [reflexivity|by apply an_since]..|done].
      + destruct ch; [| |done]; (destruct (checkIfModifiedSince _ _ _ _); [| |done]); (eexists; split; [reflexivity|by apply Hgo]).
    - assert (seqb (rq_method r) (L "GET") || seqb (rq_method r) (L "HEAD") = true) as -> by (by destruct Hm as [->| ->]).
      destruct ch; [eexists; split; [reflexivity|by apply an_any]..|done].
    - destruct ch; [| |done]; (eexists; split; [reflexivity|by apply Hgo]). }
  destruct (decide (h (L "If-Match") = [])) as [Him|Him]; [|destruct (decide (h (L "If-Match") = L "*")) as [Him2|Him2]].
  - destruct (if_unmodified (h (L "If-Unmodified-Since")) m) as [[Hn Hu]|[Hn Hc]].
    + rewrite Hu. eexists; split; [reflexivity|]. apply an_fails; [done|]. intros [Hp|[_ Hp]]; [by rewrite Him in Hp|done].
    + apply Hrest; [by right|done].
  - apply (Hrest CTrue); [by left|done].
  - eexists; split; [reflexivity|]. apply an_fails; [done|]. by intros [Hp|[Hp _]].
Qed.
End Facts.

Lemma in_range_dec parse_time m s : in_range parse_time m s \/ ~ in_range parse_time m s.
Proof.
  unfold in_range. destruct (decide (s = [])) as [E|E]; [left; by left|].
  destruct m as [t|]; [|right; by intros [?|(? & ? & _)]]. destruct (parse_time s) as [u|] eqn:Eu; [|right; intros [?|(? & ? & ?)]; congruence].
  destruct (decide (u = t)) as [->|]; [left; right; by exists t|right; intros [?|(? & ? & ?)]; congruence].
Qed.
Lemma answers_fun parse_time T m h a b : answers parse_time T m h a -> answers parse_time T m h b -> a = b.
Proof.
  intros Ha Hb.
  destruct Ha as [H1|H1 H2|H1 H2|H1 H2 H3 H4|rg H1 H2 H3 H4 H5 H6], Hb as [K1|K1 K2|K1 K2|K1 K2 K3 K4|rg' K1 K2 K3 K4 K5 K6];
    try done; try (by destruct (K4 H1)); try (by destruct (H4 K1)); try congruence.
  f_equal. destruct (in_range_dec parse_time m (h (L "If-Range"))) as [Hr|Hr]; [by rewrite H5, K5|by rewrite H6, K6].
Qed.
