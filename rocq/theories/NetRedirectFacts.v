(** http.Redirect against the reading of URL references. *)
From Coq Require Import ZArith NArith.
From Verif Require Import Base GoStr GoStrFacts Tree Header Router Ctx PathClean Strconv UtilSpec UtilFacts StaticSpec Static StaticFacts StaticPaths
  NetQuery QueryFacts NetRedirect RedirectSpec.
From Verif Require GetterFacts PatternFacts.

(** ** Bytes *)
Lemma ctl_free_spec s : no_control s -> ctl_free s = true.
Proof.
  unfold ctl_free, byte_of. induction 1 as [|a s [H1 H2] _ IH]; [done|]. cbn [forallb]. rewrite IH.
  apply N.ltb_ge in H1. apply N.eqb_neq in H2. by rewrite H1, H2.
Qed.
Lemma escapes_ok_spec s : escapes_ok s = true <-> pct_decode s <> None.
Proof.
  induction s as [s IH] using (induction_ltof1 _ (@length ascii)). unfold ltof in IH.
  destruct s as [|a s]; [done|]. cbn [escapes_ok pct_decode]. destruct (Ascii.eqb a "%").
  - destruct s as [|x [|y s]]; try (split; done). rewrite !unhex_val.
    destruct (hex_val x), (hex_val y); try (split; done).
    rewrite IH by (cbn; lia). by destruct (pct_decode s).
  - rewrite IH by (cbn; lia). by destruct (pct_decode s).
Qed.
Lemma is_alpha_spec a : is_alpha a = true <-> letter a.
Proof.
  unfold is_alpha, letter, byte_of. rewrite orb_true_iff, !andb_true_iff, !N.leb_le. done.
Qed.
Lemma is_scheme_byte_spec a : is_alpha a || is_scheme_byte a = true <-> scheme_byte a.
Proof.
  rewrite orb_true_iff, is_alpha_spec. unfold is_scheme_byte, scheme_byte, UtilSpec.is_digit, byte_of.
  rewrite !orb_true_iff, !andb_true_iff, !N.leb_le, !Ascii.eqb_eq, !elem_of_cons, elem_of_nil. tauto.
Qed.
Lemma split_at_app c p s : c ∉ p -> split_at c (p ++ lead c s) = (p, match s with Some x => x | None => [] end).
Proof.
  intros H. unfold split_at, lead. destruct s as [x|].
  - rewrite GetterFacts.index_byte_app by done. rewrite take_app. f_equal.
    replace (S (length p)) with (length (p ++ [c])) by (rewrite app_length; cbn; lia).
    replace (p ++ c :: x) with ((p ++ [c]) ++ x) by (by rewrite <- app_assoc). by rewrite drop_app.
  - rewrite app_nil_r, StaticPaths.index_byte_absent by done. done.
Qed.

(** ** RFC 3986, section 5.2.4 *)
Lemma remove_dots_app z segs : forall dir, z <> L "." -> z <> L ".." -> Forall (fun x => x <> []) segs ->
  remove_dots dir (segs ++ [z]) = walk dir segs ++ [z].
Proof.
  induction segs as [|x segs IH]; intros dir H1 H2 Hs.
  - cbn [app remove_dots walk]. by rewrite !bool_decide_eq_false_2.
  - apply Forall_cons_1 in Hs as [Hx Hs]. cbn [app remove_dots walk].
    assert (Hne : exists y l, segs ++ [z] = y :: l) by (destruct segs; cbn; by eexists _, _).
    destruct (decide (x = L ".")) as [->|N1].
    { rewrite !bool_decide_eq_true_2 by auto. destruct Hne as (y & l & E). rewrite <- IH by done. by rewrite E. }
    rewrite (bool_decide_eq_false_2 (x = L ".")), (bool_decide_eq_false_2 (x = [] \/ x = L ".")) by tauto.
    destruct (decide (x = L "..")) as [->|N2].
    { rewrite !bool_decide_eq_true_2 by auto. destruct Hne as (y & l & E). rewrite <- IH by done. by rewrite E. }
    rewrite !(bool_decide_eq_false_2 (x = L "..")) by done. by apply IH.
Qed.
Lemma split_empty_last s : s <> [] -> (last (split_byte "/" s) = Some [] <-> last s = Some "/"%char).
Proof.
  induction s as [|a s IH]; [done|]. intros _. cbn [split_byte]. destruct s as [|b s].
  { cbn. destruct (Ascii.eqb_spec a "/") as [->|N]; [done|]. split; intros H; [discriminate H|]. cbn in H. congruence. }
  specialize (IH ltac:(done)). change (last (a :: b :: s)) with (last (b :: s)).
  destruct (Ascii.eqb_spec a "/") as [->|N].
  - destruct (split_byte "/" (b :: s)) as [|y l] eqn:E; [by destruct (split_byte_nonempty "/" (b :: s))|]. exact IH.
  - destruct (split_byte "/" (b :: s)) as [|y l] eqn:E; [by destruct (split_byte_nonempty "/" (b :: s))|].
    destruct l as [|y' l]; [|exact IH]. split; [intros H; discriminate H|].
    intros H. apply IH in H. injection H as ->. exfalso.
    destruct (decide (b = "/"%char)) as [->|Nb].
    + cbn [split_byte] in E. change (Ascii.eqb "/" "/") with true in E. injection E as E. by destruct (split_byte_nonempty "/" s).
    + cbn [split_byte] in E. destruct (Ascii.eqb_spec b "/"); [done|]. destruct (split_byte "/" s); discriminate E.
Qed.
Lemma cleaned_rfc t a z : split_byte "/" t = a ++ [z] -> Forall (fun x => x <> []) a -> z <> L "." -> z <> L ".." ->
  cleaned ("/"%char :: t) = slashed (remove_dots [] (split_byte "/" t)).
Proof.
  intros E Ha H1 H2. rewrite E, remove_dots_app by done. unfold cleaned. rewrite walk_leading, E, walk_app.
  set (l := walk [] a). assert (Hl : Forall proper l).
  { assert (H : Forall (fun x => "/"%char ∉ x) a). { assert (H := split_byte_no_sep "/" t). rewrite E in H. by apply Forall_app in H as [H _]. }
    unfold l. assert (walk [] a = rev (clean_segs true [] a)) as -> by (apply (walk_clean [] a); [constructor|done]). apply Forall_rev. by apply clean_segs_proper; [constructor|]. }
  destruct (decide (z = [])) as [->|Nz].
  - cbn [walk]. rewrite bool_decide_eq_true_2 by auto.
    assert (Hlast : last ("/"%char :: t) = Some "/"%char).
    { destruct t as [|b t]; [done|]. change (last ("/"%char :: b :: t)) with (last (b :: t)). apply split_empty_last; [done|]. rewrite E. apply last_snoc. }
    rewrite Hlast. destruct l as [|x l].
    + rewrite bool_decide_eq_false_2 by (by intros [_ ?]). done.
    + rewrite bool_decide_eq_true_2 by done. unfold slashed.
      refine (eq_trans _ (f_equal (cons "/"%char) (eq_sym (join_app_nonempty (x :: l) [[]] ltac:(done) ltac:(done))))). done.
  - cbn [walk]. rewrite !bool_decide_eq_false_2 by tauto. cbn [app]. rewrite bool_decide_eq_false_2; [by rewrite app_nil_r|].
    intros [H _]. destruct t as [|b t].
    + vm_compute in E. destruct a as [|? [|]]; cbn in E; try discriminate E. by injection E as <-.
    + change (last ("/"%char :: b :: t)) with (last (b :: t)) in H. apply split_empty_last in H; [|done]. rewrite E, last_snoc in H. congruence.
Qed.

(** ** Which targets are local *)
Section Local.
Variable parseAuthority : gostr -> option gostr.

Lemma getscheme_none raw s : forall n, (forall a b, s = a ++ ":"%char :: b -> "/"%char ∈ a \/ "?"%char ∈ a) ->
  getscheme_at raw n s = Some ([], raw).
Proof.
  induction s as [|c s IH]; intros n H; [done|]. cbn [getscheme_at].
  assert (Hc : c <> ":"%char) by (intros ->; destruct (H [] s eq_refl) as [E|E]; inversion E).
  assert (Hnext : c <> "/"%char -> c <> "?"%char -> forall a b, s = a ++ ":"%char :: b -> "/"%char ∈ a \/ "?"%char ∈ a).
  { intros N1 N2 a b ->. destruct (H (c :: a) b eq_refl) as [E|E]; apply elem_of_cons in E as [E|E]; auto; congruence. }
  destruct (is_alpha c) eqn:E1.
  { apply IH, Hnext; intros ->; vm_compute in E1; done. }
  destruct (is_scheme_byte c) eqn:E2.
  { destruct (n =? 0)%nat; [done|]. apply IH, Hnext; intros ->; vm_compute in E2; done. }
  destruct (Ascii.eqb_spec c ":"); done.
Qed.

Lemma index_before a b s : (forall x y, s = x ++ a :: y -> b ∈ x) ->
  match index_byte a s, index_byte b s with
  | None, _ => True | Some _, None => False | Some i, Some j => j < i end.
Proof.
  induction s as [|c s IH]; intros H; [done|]. cbn [index_byte].
  destruct (Ascii.eqb_spec c a) as [->|Na]. { specialize (H [] s eq_refl). inversion H. }
  destruct (Ascii.eqb_spec c b) as [->|Nb]. { destruct (index_byte a s); [lia|done]. }
  assert (Hs : forall x y, s = x ++ a :: y -> b ∈ x).
  { intros x y ->. specialize (H (c :: x) y eq_refl). apply elem_of_cons in H as [H|H]; [congruence|done]. }
  specialize (IH Hs). destruct (index_byte a s), (index_byte b s); done || (cbn; lia).
Qed.
Lemma has_prefix_false p s : has_prefix p s = false <-> forall t, s <> p ++ t.
Proof.
  destruct (has_prefix p s) eqn:E.
  - apply has_prefix_spec in E as [t ->]. split; [done|]. intros H. by destruct (H t).
  - split; [|done]. intros _ t ->. by rewrite has_prefix_app in E.
Qed.
Lemma relative_local p q f : relative_ref p q f -> parse_local parseAuthority (reference p q f) = true.
Proof.
  intros [[Hp1 Hp2] Hq [Hc1 Hc2] [He1 He2] Hh Hs]. unfold parse_local, reference.
  rewrite app_assoc, (split_at_app "#" (p ++ lead "?" q) f) by (apply not_elem_of_app; done).
  assert (ctl_free (p ++ lead "?" q) = true) as ->. { apply ctl_free_spec. by apply Forall_app. }
  assert ((if seqb match f with Some x => x | None => [] end [] then true else escapes_ok match f with Some x => x | None => [] end) = true) as ->.
  { destruct (seqb _ _); [done|]. apply escapes_ok_spec. destruct f as [x|]; [|done]. cbn [lead pct_decode] in He2.
    change (Ascii.eqb "#" "%") with false in He2. cbn iota in He2. by destruct (pct_decode x). }
  rewrite andb_true_r. cbn [andb]. destruct (seqb _ (L "*")); [done|].
  unfold getscheme. rewrite getscheme_none.
  2:{ intros a b E. destruct (decide ("?"%char ∈ a)) as [|Na]; [by right|left].
      apply app_eq_inv in E as [(k & E1 & E2)|(k & E1 & E2)].
      - destruct k as [|x k]; cbn [app] in E2.
        + destruct q as [q|]; cbn [lead] in E2; discriminate E2.
        + injection E2 as <- ->. by apply (Hs a k).
      - subst a. destruct k as [|x k]; cbn [app] in E2; destruct q as [q|]; cbn [lead] in E2; try discriminate E2.
        injection E2 as <- _. exfalso. apply Na, elem_of_app. right. left. }
  rewrite seqb_refl. cbn [andb]. rewrite split_at_app by done.
  assert ((if has_prefix (L "/") p then true else match index_byte ":" p, index_byte "/" p with
    | None, _ => true | Some _, None => false | Some colon, Some slash => negb (colon <? slash)%nat end) = true) as ->.
  { destruct (has_prefix _ _); [done|]. generalize (index_before ":" "/" p Hs).
    destruct (index_byte ":" p), (index_byte "/" p); try done. intros H. by apply negb_true_iff, Nat.ltb_ge, Nat.lt_le_incl. }
  cbn [andb].
  assert (negb (has_prefix (L "///") p) && has_prefix (L "//") p = false) as ->.
  { destruct Hh as [Hh|[t ->]]; [|by rewrite has_prefix_app].
    assert (has_prefix (L "//") p = false) as -> by (by apply has_prefix_false). by rewrite andb_false_r. }
  cbn iota. by apply escapes_ok_spec.
Qed.

Lemma getscheme_some raw s : forall n rest, Forall scheme_byte s -> 0 < n -> exists x, getscheme_at raw n (s ++ ":"%char :: rest) = Some (take x raw, rest) /\ 0 < x.
Proof.
  induction s as [|c s IH]; intros n rest Hs Hn; cbn [app getscheme_at].
  - change (is_alpha ":") with false. change (is_scheme_byte ":") with false. change (Ascii.eqb ":" ":") with true. cbn iota.
    destruct n; [lia|]. cbn [Nat.eqb]. by exists (S n).
  - apply Forall_cons_1 in Hs as [Hc Hs]. apply is_scheme_byte_spec in Hc. destruct (is_alpha c); [by apply IH; [|lia]|].
    cbn [orb] in Hc. rewrite Hc. destruct n; [lia|]. cbn [Nat.eqb]. by apply IH; [|lia].
Qed.
Lemma ends3 (b : ascii) : b ∈ ["/"; "?"; "#"]%char <-> b = "/"%char \/ b = "?"%char \/ b = "#"%char.
Proof. rewrite !elem_of_cons, elem_of_nil. intuition. Qed.
Lemma ends2 (b : ascii) : b ∈ ["/"; "?"]%char <-> b = "/"%char \/ b = "?"%char.
Proof. rewrite !elem_of_cons, elem_of_nil. intuition. Qed.
Lemma host_cut h rest : Forall (fun a => a ∉ ["/"; "?"; "#"; "@"]%char) h -> match rest with [] => True | a :: _ => a ∈ ["/"; "?"; "#"]%char end ->
  forall c, c ∈ ["/"; "?"; "#"]%char -> exists rest', (split_at c (h ++ rest)).1 = h ++ rest' /\ match rest' with [] => True | a :: _ => head rest = Some a /\ a <> c end.
Proof.
  intros Hh Hr c Hc.
  assert (Hch : c ∉ h). { intros E. rewrite Forall_forall in Hh. apply (Hh _ E). revert Hc. clear. rewrite !elem_of_cons. intuition. }
  unfold split_at. destruct (index_byte c (h ++ rest)) as [i|] eqn:E; cbn [fst].
  - destruct rest as [|a rest]. { rewrite app_nil_r in E. rewrite StaticPaths.index_byte_absent in E by done. done. }
    destruct (decide (a = c)) as [->|Na].
    + rewrite GetterFacts.index_byte_app in E by done. injection E as <-. rewrite take_app. exists []. by rewrite app_nil_r.
    + assert (exists k, i = length h + S k) as [k ->].
      { rewrite PatternFacts.index_byte_app, StaticPaths.index_byte_absent in E by done. cbn [index_byte] in E.
        destruct (Ascii.eqb_spec a c); [done|]. destruct (index_byte c rest) as [k|]; [|done]. cbn in E. exists k. congruence. }
      rewrite take_add_app by done. cbn [take]. by exists (a :: take k rest).
  - exists rest. split; [done|]. destruct rest as [|a rest]; [done|]. split; [done|]. intros ->.
    by rewrite GetterFacts.index_byte_app in E.
Qed.
Lemma elsewhere_kept uri : (forall a, a <> [] -> "@"%char ∉ a -> parseAuthority a <> Some []) -> elsewhere uri -> parse_local parseAuthority uri = false.
Proof.
  intros Hauth [(s & rest & (a & t & -> & Ha & Ht) & ->)|(h & rest & Hne & Hh & -> & Hr)].
  - unfold parse_local.
    assert (exists rest', (split_at "#" ((a :: t) ++ ":"%char :: rest)).1 = (a :: t) ++ ":"%char :: rest') as [rest' E].
    { assert (Hn : "#"%char ∉ (a :: t) ++ [":"%char]).
      { intros E. apply elem_of_app in E as [E|E]; [|by apply elem_of_list_singleton in E].
        assert (Hs : scheme_byte "#") . { apply elem_of_cons in E as [<-|E]; [by left|]. rewrite Forall_forall in Ht. by apply Ht. }
        apply is_scheme_byte_spec in Hs. vm_compute in Hs. done. }
      replace ((a :: t) ++ ":"%char :: rest) with (((a :: t) ++ [":"%char]) ++ rest) by (by rewrite <- app_assoc).
      unfold split_at. rewrite PatternFacts.index_byte_app, (StaticPaths.index_byte_absent _ _ Hn).
      destruct (index_byte "#" rest) as [k|]; cbn [fst option_map].
      - exists (take k rest). rewrite take_add_app by done. by rewrite <- app_assoc.
      - exists rest. by rewrite <- app_assoc. }
    destruct (split_at _ _) as [u frag]. cbn [fst] in E. subst u. destruct (ctl_free _); [|done]. cbn [andb].
    assert (seqb ((a :: t) ++ ":"%char :: rest') (L "*") = false) as ->. { apply seqb_false. intros E. vm_compute in E. injection E as _ E. by destruct t. }
    unfold getscheme. cbn [app getscheme_at]. rewrite (proj2 (is_alpha_spec a)) by done.
    destruct (getscheme_some (a :: t ++ ":"%char :: rest') t 1 rest') as (x & -> & Hx); [done|lia|]. destruct x; [lia|]. done.
  - unfold parse_local.
    assert (exists rest', (split_at "#" (L "//" ++ h ++ rest)).1 = L "//" ++ h ++ rest' /\ match rest' with [] => True | a :: _ => a ∈ ["/"; "?"]%char end) as (r1 & E & H1).
    { destruct (host_cut h rest Hh Hr "#") as (r1 & E & H1); [apply (bool_decide_eq_true _); reflexivity|]. exists r1.
      split. 2:{ destruct r1 as [|a r1]; [done|]. destruct H1 as [H1 H2]. destruct rest as [|b rest]; [done|]. injection H1 as ->.
        apply ends3 in Hr. apply ends2. tauto. }
      rewrite <- E. unfold split_at. change (L "//" ++ h ++ rest) with ("/"%char :: "/"%char :: h ++ rest). cbn [index_byte].
      change (Ascii.eqb "/" "#") with false. cbn iota. by destruct (index_byte "#" (h ++ rest)). }
    destruct (split_at "#" _) as [u frag]. cbn [fst] in E. subst u. destruct (ctl_free _); [|done]. cbn [andb].
    assert (seqb (L "//" ++ h ++ r1) (L "*") = false) as -> by (by apply seqb_false).
    unfold getscheme. rewrite getscheme_none.
    2:{ intros a b E. left. destruct a as [|x a]; [discriminate E|]. injection E as <- _. left. }
    rewrite seqb_refl. cbn [andb].
    assert (exists r2, (split_at "?" (L "//" ++ h ++ r1)).1 = L "//" ++ h ++ r2 /\ match r2 with [] => True | a :: _ => a = "/"%char end) as (r2 & E & H2).
    { destruct (host_cut h r1 Hh) with (c := "?"%char) as (r2 & E & H2); [destruct r1; [done|]; apply ends2 in H1; apply ends3; tauto|apply (bool_decide_eq_true _); reflexivity|].
      exists r2. split. 2:{ destruct r2 as [|a r2]; [done|]. destruct H2 as [H2 H3]. destruct r1 as [|b r1]; [done|]. injection H2 as ->.
        apply ends2 in H1. tauto. }
      rewrite <- E. unfold split_at. change (L "//" ++ h ++ r1) with ("/"%char :: "/"%char :: h ++ r1). cbn [index_byte].
      change (Ascii.eqb "/" "?") with false. cbn iota. by destruct (index_byte "?" (h ++ r1)). }
    destruct (split_at "?" _) as [u qq]. cbn [fst] in E. subst u.
    change (has_prefix (L "/") (L "//" ++ h ++ r2)) with true. change (has_prefix (L "//") (L "//" ++ h ++ r2)) with (has_prefix (L "//") (L "//" ++ (h ++ r2))).
    rewrite has_prefix_app. cbn [andb].
    assert (has_prefix (L "///") (L "//" ++ h ++ r2) = false) as ->.
    { apply has_prefix_false. intros t E. destruct h as [|x h]; [done|]. injection E as -> _.
      apply Forall_cons_1 in Hh as [Hx _]. apply Hx. left. }
    cbn [negb andb]. change (drop 2 (L "//" ++ h ++ r2)) with (h ++ r2).
    assert (Hat : "@"%char ∉ h). { intros E. rewrite Forall_forall in Hh. apply (Hh _ E). apply (bool_decide_eq_true _). reflexivity. }
    assert (Hsl : "/"%char ∉ h). { intros E. rewrite Forall_forall in Hh. apply (Hh _ E). left. }
    assert (E : exists x y, match index_byte "/" (h ++ r2) with Some i => (parseAuthority (take i (h ++ r2)), drop i (h ++ r2)) | None => (parseAuthority (h ++ r2), []) end
      = (parseAuthority x, y) /\ x <> [] /\ "@"%char ∉ x).
    { destruct r2 as [|c r2].
      - rewrite app_nil_r, StaticPaths.index_byte_absent by done. by eexists _, _.
      - subst c. rewrite GetterFacts.index_byte_app by done. rewrite take_app. by eexists _, _. }
    destruct E as (x & y & -> & Hx & Hat'). specialize (Hauth x Hx Hat').
    destruct (parseAuthority x) as [[|z zs]|]; done || (by rewrite andb_false_l) || done.
Qed.

(** ** The target *)
Lemma last_slash d z : "/"%char ∉ z -> last_index_byte "/" (d ++ "/"%char :: z) = Some (length d).
Proof.
  intros Hz. induction d as [|a d IH]; cbn [app last_index_byte length]; [|by rewrite IH].
  assert (last_index_byte "/" z = None) as ->; [|done].
  clear -Hz. induction z as [|a z IH]; [done|]. cbn [last_index_byte]. rewrite IH by (intros H; apply Hz; by right).
  destruct (Ascii.eqb_spec a "/") as [->|]; [|done]. exfalso. apply Hz. left.
Qed.
Lemma last_snoc_iff (s : gostr) c : last s = Some c <-> exists t, s = t ++ [c].
Proof. apply last_Some. Qed.
Lemma slashed_ends l : Forall proper l -> has_suffix (L "/") (slashed l) = bool_decide (l = []).
Proof.
  intros Hl. destruct (has_suffix _ _) eqn:E; symmetry.
  - apply bool_decide_eq_true. apply has_suffix_spec in E as [t E]. destruct l as [|x l]; [done|]. exfalso. unfold slashed in E.
    destruct t as [|y t]; [injection E as E|].
    { by apply (join_nonempty (x :: l)) in Hl. }
    injection E as _ E. apply (join_no_trailing (x :: l)) in E; [done|].
    eapply Forall_impl; [exact Hl|]. intros z Hz. unfold proper in Hz. tauto.
  - apply bool_decide_eq_false. intros ->. vm_compute in E. done.
Qed.
(** the target, from the text that is cleaned *)
Lemma redirect_cleaned r url path q :
  parse_local parseAuthority url = true ->
  (if has_prefix (L "/") url then url else split_dir (if seqb (rq_path r) [] then L "/" else rq_path r) ++ url) = "/"%char :: path ++ lead "?" q ->
  "?"%char ∉ path -> redirect_url parseAuthority r url = cleaned ("/"%char :: path) ++ lead "?" q.
Proof.
  intros Hl Hu Hq. unfold redirect_url. rewrite Hl, Hu.
  assert (Hq' : "?"%char ∉ "/"%char :: path) by (apply not_elem_of_cons; done).
  match goal with |- (let '(_, _) := ?m in _) = _ => assert (m = ("/"%char :: path, lead "?" q)) as -> end.
  { change ("/"%char :: path ++ lead "?" q) with (("/"%char :: path) ++ lead "?" q). destruct q as [q|]; cbn [lead].
    - rewrite GetterFacts.index_byte_app by done. by rewrite take_app, drop_app.
    - rewrite app_nil_r, StaticPaths.index_byte_absent by done. done. }
  f_equal. unfold cleaned. destruct (Clean_rooted path) as (l & Hc & Hp & Hw). rewrite Hc.
  assert (walk [] (split_byte "/" ("/"%char :: path)) = l) as -> by (by rewrite walk_leading).
  rewrite slashed_ends by done.
  destruct (has_suffix (L "/") ("/"%char :: path)) eqn:E.
  - apply has_suffix_spec in E as [t E]. cbn [andb]. rewrite <- bool_decide_not.
    case_bool_decide; [rewrite bool_decide_eq_true_2; [done|split; [apply last_snoc_iff; by exists t|done]]|].
    rewrite bool_decide_eq_false_2; [by rewrite app_nil_r|]. by intros [_ ?].
  - cbn [andb]. rewrite bool_decide_eq_false_2; [by rewrite app_nil_r|]. intros [H _]. apply last_snoc_iff in H as [t H].
    assert (has_suffix (L "/") ("/"%char :: path) = true) by (apply has_suffix_spec; by exists t). congruence.
Qed.
Lemma made_absolute r p q f full : resolved (rq_path r) p full ->
  (if has_prefix (L "/") (reference p q f) then reference p q f
   else split_dir (if seqb (rq_path r) [] then L "/" else rq_path r) ++ reference p q f) = full ++ lead "?" q ++ lead "#" f.
Proof.
  intros [t|d z p' E Hz Hp]; [done|].
  assert (has_prefix (L "/") (reference p' q f) = false) as ->.
  { apply has_prefix_false. intros t Ht. destruct p' as [|a p']; [|injection Ht as -> _; by destruct (Hp p')].
    unfold reference in Ht. destruct q, f; discriminate Ht. }
  rewrite (proj2 (seqb_false (rq_path r) [])) by (rewrite E; by destruct d).
  rewrite E. unfold split_dir. rewrite last_slash by done.
  replace (take (S (length d)) (d ++ "/"%char :: z)) with (d ++ ["/"%char]).
  - unfold reference. by rewrite <- !app_assoc.
  - replace (d ++ "/"%char :: z) with ((d ++ ["/"%char]) ++ z) by (by rewrite <- app_assoc). symmetry. apply take_app_alt. rewrite app_length. cbn. lia.
Qed.
Lemma redirect_local r p q full : relative_ref p q None -> resolved (rq_path r) p full ->
  head full = Some "/"%char -> "?"%char ∉ full ->
  redirect_url parseAuthority r (reference p q None) = cleaned full ++ lead "?" q.
Proof.
  intros Hr Hf Hh Hq. destruct full as [|a full]; [done|]. injection Hh as ->. apply not_elem_of_cons in Hq as [_ Hq].
  apply redirect_cleaned; [by apply relative_local| |done]. rewrite (made_absolute r p q None ("/"%char :: full)) by done.
  cbn [lead]. by rewrite app_nil_r.
Qed.
Lemma redirect_elsewhere r uri : (forall a, a <> [] -> "@"%char ∉ a -> parseAuthority a <> Some []) -> elsewhere uri ->
  redirect_url parseAuthority r uri = uri.
Proof. intros Ha Hu. unfold redirect_url. by rewrite elsewhere_kept. Qed.
Lemma redirect_leads_to r uri target : (forall a, a <> [] -> "@"%char ∉ a -> parseAuthority a <> Some []) -> leads (rq_path r) uri target ->
  redirect_url parseAuthority r uri = target.
Proof. intros Ha [u Hu|p q full H1 H2 H3 H4]; [by apply redirect_elsewhere|by apply redirect_local]. Qed.
Lemma resolved_head base p full : head base = Some "/"%char -> resolved base p full -> head full = Some "/"%char.
Proof. intros H [t|d z p' -> Hz Hp]; [done|]. by destruct d. Qed.
Lemma last_segment base : head base = Some "/"%char -> exists d z, base = d ++ "/"%char :: z /\ "/"%char ∉ z.
Proof.
  induction base as [|a base IH] using rev_ind; [done|]. intros H. destruct (decide (a = "/"%char)) as [->|Na].
  - exists base, []. split; [done|apply not_elem_of_nil].
  - destruct base as [|b base]; [cbn in H; congruence|]. destruct IH as (d & z & -> & Hz); [done|].
    exists d, (z ++ [a]). split; [by rewrite <- app_assoc|]. apply not_elem_of_app. split; [done|].
    intros H1. apply elem_of_list_singleton in H1. congruence.
Qed.
Lemma resolved_exists base p : head base = Some "/"%char -> exists full, resolved base p full.
Proof.
  intros H. assert ((exists t, p = "/"%char :: t) \/ forall t, p <> "/"%char :: t) as [[t ->]|Hp].
  { destruct p as [|a p]; [by right|]. destruct (decide (a = "/"%char)) as [->|]; [left; by exists p|right; intros; congruence]. }
  - exists ("/"%char :: t). constructor.
  - destruct (last_segment base H) as (d & z & E & Hz). exists (d ++ "/"%char :: p). by apply (res_merge _ d z).
Qed.

(** ** Never another host *)
Lemma elem_of_lead c (a : ascii) o : a ∈ lead c o <-> exists s, o = Some s /\ a ∈ c :: s.
Proof.
  destruct o as [s|]; cbn [lead]; split.
  - intros H. by exists s.
  - intros (s' & E & H). by injection E as <-.
  - intros H. inversion H.
  - by intros (s' & E & _).
Qed.
Lemma cut_query s : exists p q, s = p ++ lead "?" q /\ "?"%char ∉ p.
Proof.
  induction s as [|a s (p & q & -> & Hp)]; [exists [], None; split; [done|apply not_elem_of_nil]|].
  destruct (decide (a = "?"%char)) as [->|Na].
  - exists [], (Some (p ++ lead "?" q)). split; [done|apply not_elem_of_nil].
  - exists (a :: p), q. split; [done|]. apply not_elem_of_cons. split; [congruence|done].
Qed.
Lemma walk_subset segs : forall dir x, x ∈ walk dir segs -> x ∈ dir \/ x ∈ segs.
Proof.
  induction segs as [|y segs IH]; intros dir x H; [by left|]. cbn [walk] in H.
  case_bool_decide; [apply IH in H as [H|H]; [by left|right; by right]|].
  case_bool_decide; apply IH in H as [H|H]; [left|right; by right| |right; by right].
  - apply elem_of_list_lookup in H as [i H]. apply lookup_take_Some in H as [H _]. by eapply elem_of_list_lookup_2.
  - apply elem_of_app in H as [H|H]; [by left|]. apply elem_of_list_singleton in H as ->. right. left.
Qed.
Lemma join_bytes l c : c ∈ join (L "/") l -> c = "/"%char \/ exists x, x ∈ l /\ c ∈ x.
Proof.
  induction l as [|x l IH]; [intros H; inversion H|]. destruct l as [|y l].
  - intros H. right. exists x. split; [left|done].
  - change (join (L "/") (x :: y :: l)) with (x ++ L "/" ++ join (L "/") (y :: l)). intros H.
    apply elem_of_app in H as [H|H]; [right; exists x; split; [left|done]|].
    apply elem_of_app in H as [H|H]; [left; by apply elem_of_list_singleton in H|].
    destruct (IH H) as [->|(z & Hz & H')]; [by left|]. right. exists z. split; [by right|done].
Qed.
Lemma split_bytes s x c : x ∈ split_byte "/" s -> c ∈ x -> c ∈ s.
Proof.
  revert x. induction s as [|a s IH]; intros x Hx Hc; cbn [split_byte] in Hx.
  - apply elem_of_list_singleton in Hx as ->. done.
  - destruct (Ascii.eqb a "/").
    + apply elem_of_cons in Hx as [->|Hx]; [inversion Hc|]. right. by apply (IH x).
    + destruct (split_byte "/" s) as [|y l] eqn:E; [by destruct (split_byte_nonempty "/" s)|].
      apply elem_of_cons in Hx as [->|Hx].
      * apply elem_of_cons in Hc as [->|Hc]; [left|]. right. apply (IH y); [left|done].
      * right. apply (IH x); [by right|done].
Qed.
Lemma cleaned_bytes path c : c ∈ cleaned path -> c = "/"%char \/ c ∈ path.
Proof.
  unfold cleaned, slashed. intros H. apply elem_of_app in H as [H|H].
  - apply elem_of_cons in H as [->|H]; [by left|]. apply join_bytes in H as [->|(x & Hx & H)]; [by left|]. right.
    apply walk_subset in Hx as [Hx|Hx]; [inversion Hx|]. by apply (split_bytes path x).
  - case_bool_decide; [|inversion H]. left. by apply elem_of_list_singleton in H.
Qed.
Lemma walk_proper_all q : Forall proper (walk [] (split_byte "/" q)).
Proof. destruct (Clean_rooted q) as (l & _ & H & <-). done. Qed.
Lemma cleaned_single path rest : (forall t, rest <> "/"%char :: t) -> same_host (cleaned path ++ rest).
Proof.
  intros Hr. unfold cleaned. set (l := walk [] _). assert (Hl : Forall proper l) by apply walk_proper_all. unfold slashed, same_host. cbn [app].
  eexists. split; [done|]. intros t E. destruct l as [|x l].
  - cbn [join app] in E. rewrite bool_decide_eq_false_2 in E by (by intros [_ ?]). by apply (Hr t).
  - inversion Hl as [|? ? (H1 & _ & _ & H2) _]; subst. destruct x as [|a x]; [done|].
    assert (a = "/"%char) as ->; [|apply H2; left]. destruct l; cbn in E; congruence.
Qed.

(** ** Writing it down *)
Lemma hex_escape_ascii a : Forall (fun b => (N_of_ascii b < 128)%N) (hex_escape_byte a) /\ ((N_of_ascii a < 128)%N -> hex_escape_byte a = [a]).
Proof.
  destruct a as [[] [] [] [] [] [] [] []]; (split; [repeat constructor|intros H; first [reflexivity|exfalso; vm_compute in H; discriminate H]]).
Qed.
Lemma hex_escape_pct s : pct_decode (flat_map hex_escape_byte s) = pct_decode s.
Proof.
  induction s as [s IH] using (induction_ltof1 _ (@length ascii)). unfold ltof in IH.
  destruct s as [|a s]; [done|]. cbn [flat_map]. destruct (decide (a = "%"%char)) as [->|Na].
  - change (hex_escape_byte "%") with ["%"%char]. cbn [app pct_decode]. change (Ascii.eqb "%" "%") with true. cbn iota.
    assert (Hx : forall x, (hex_escape_byte x = [x]) \/ (hex_val x = None /\ exists u, hex_escape_byte x = "%"%char :: u)).
    { intros x. destruct x as [[] [] [] [] [] [] [] []]; first [left; reflexivity|right; split; [reflexivity|eexists; vm_compute; reflexivity]]. }
    destruct s as [|x s]; [done|]. cbn [flat_map].
    destruct (Hx x) as [->|[Ex [u ->]]]; cbn [app].
    + destruct s as [|y s]; [done|]. cbn [flat_map]. destruct (Hx y) as [->|[Ey [u ->]]]; cbn [app].
      * rewrite IH by (cbn; lia). done.
      * rewrite Ey. change (hex_val "%") with (@None N). by destruct (hex_val x).
    + rewrite Ex. change (hex_val "%") with (@None N). destruct (u ++ flat_map hex_escape_byte s), s; try done.
  - destruct (hex_escape_ok a Na) as [-> _]. rewrite IH by (cbn; lia). cbn [pct_decode]. destruct (Ascii.eqb_spec a "%"); done.
Qed.
Lemma location_writes s : writes s (flat_map hex_escape_byte s).
Proof.
  split; [|split; [apply hex_escape_pct|]].
  - induction s as [|a s IH]; [constructor|]. cbn [flat_map]. apply Forall_app. split; [apply hex_escape_ascii|done].
  - induction 1 as [|a s Ha _ IH]; [done|]. cbn [flat_map]. rewrite (proj2 (hex_escape_ascii a)) by done. cbn [app]. by f_equal.
Qed.
Lemma same_host_escaped s : same_host s -> same_host (flat_map hex_escape_byte s).
Proof.
  intros (t & -> & Ht). exists (flat_map hex_escape_byte t). split; [done|]. intros t' E. destruct t as [|a t]; [done|]. cbn [flat_map] in E.
  destruct a as [[] [] [] [] [] [] [] []]; try discriminate E. by apply (Ht t).
Qed.
Lemma escaped_bytes s c : c ∈ L "\"  -> c ∈ flat_map hex_escape_byte s -> c ∈ s.
Proof.
  intros Hc. apply elem_of_list_singleton in Hc as ->. intros H. apply elem_of_list_In, in_flat_map in H as (a & Ha & H).
  apply elem_of_list_In in Ha, H. assert (a = "\"%char) as <-; [|done].
  destruct a as [[] [] [] [] [] [] [] []]; first [reflexivity|exfalso; revert H; apply (bool_decide_eq_false _); vm_compute; reflexivity].
Qed.

Lemma resolved_bytes base p full c : resolved base p full -> c ∈ full -> c ∈ base \/ c ∈ p.
Proof.
  intros [t|d z p' -> Hz Hp]; [by right|]. intros H. apply elem_of_app in H as [H|H]; [left; apply elem_of_app; by left|].
  apply elem_of_cons in H as [->|H]; [left; apply elem_of_app; right; left|by right].
Qed.
Lemma redirect_same_host r p q f : relative_ref p q f -> head (rq_path r) = Some "/"%char ->
  same_host (redirect_location parseAuthority r (reference p q f)) /\
  ("\"%char ∉ reference p q f -> "\"%char ∉ rq_path r -> "\"%char ∉ redirect_location parseAuthority r (reference p q f)).
Proof.
  intros Hr Hh. destruct (resolved_exists (rq_path r) p Hh) as [full Hf].
  assert (Hfh := resolved_head _ _ _ Hh Hf). destruct full as [|a full]; [done|]. injection Hfh as ->.
  destruct (cut_query (full ++ lead "?" q ++ lead "#" f)) as (p' & q' & E & Hp').
  assert (Ht : redirect_url parseAuthority r (reference p q f) = cleaned ("/"%char :: p') ++ lead "?" q').
  { apply redirect_cleaned; [by apply relative_local| |done]. rewrite (made_absolute r p q f ("/"%char :: full)) by done.
    cbn [app]. by rewrite E. }
  unfold redirect_location. rewrite Ht. split.
  - apply same_host_escaped, cleaned_single. destruct q'; intros t; discriminate.
  - intros H1 H2 H. apply escaped_bytes in H; [|left]. 
    assert ("\"%char ∈ full ++ lead "?" q ++ lead "#" f) as H3.
    { rewrite E. apply elem_of_app in H as [H|H]; apply elem_of_app; [left|by right].
      apply cleaned_bytes in H as [H|H]; [discriminate H|]. apply elem_of_cons in H as [H|H]; [discriminate H|done]. }
    apply H1. unfold reference. apply elem_of_app in H3 as [H3|H3]; apply elem_of_app; [left|by right].
    destruct (resolved_bytes _ _ _ "\" Hf) as [H4|H4]; [by right|done|done].
Qed.

(** ** The page *)
Lemma page_reads s : reads_as (flat_map html_replace s) s.
Proof.
  induction s as [|a s IH]; [constructor|]. cbn [flat_map]. unfold html_replace.
  repeat match goal with |- context [Ascii.eqb a ?c] =>
    destruct (Ascii.eqb_spec a c) as [->|?]; [apply reads_entity; [unfold entities; apply elem_of_list_In; cbn; tauto|done]|] end.
  cbn [app]. apply reads_plain; [|done]. rewrite !elem_of_cons, elem_of_nil. tauto.
Qed.
Lemma redirect_page_link r uri n text : (n = 301%Z /\ text = L "Moved Permanently" \/ n = 302%Z /\ text = L "Found") ->
  link_page (redirect_url parseAuthority r uri) text (redirect_page_text parseAuthority r uri n).
Proof. intros H. eexists. split; [apply page_reads|]. by destruct H as [[-> ->]|[-> ->]]. Qed.
End Local.
