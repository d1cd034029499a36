(** Paths of static file routes. *)
From Verif Require Import Base GoStr GoStrFacts Strconv Pattern Tree TreeSpec Header Router PathClean Ctx Util UtilSpec UtilFacts
  Engine EngineSpec StaticReg Static StaticSpec StaticFacts StaticTop.

(** ** The pattern registered for a prefix *)
Lemma walk_app a b : forall d, walk d (a ++ b) = walk (walk d a) b.
Proof.
  induction a as [|x a IH]; intros d; [done|]. cbn [app walk].
  destruct (bool_decide _); [apply IH|]. destruct (bool_decide _); apply IH.
Qed.
Lemma walk_trailing d s : walk d (split_byte "/" (s ++ ["/"%char])) = walk d (split_byte "/" s).
Proof. rewrite split_byte_app, walk_app. done. Qed.
Lemma walk_leading d s : walk d (split_byte "/" ("/"%char :: s)) = walk d (split_byte "/" s).
Proof. done. Qed.
Lemma trim_right_snoc c s : trim_right_byte c (s ++ [c]) = trim_right_byte c s.
Proof. unfold trim_right_byte. rewrite rev_app_distr. cbn [rev app drop_while]. by rewrite Ascii.eqb_refl. Qed.
Lemma trim_right_other c a s : a <> c -> trim_right_byte c (s ++ [a]) = s ++ [a].
Proof.
  intros H. unfold trim_right_byte. rewrite rev_app_distr. cbn [rev app drop_while].
  assert (Ascii.eqb c a = false) as -> by (apply Ascii.eqb_neq; congruence). cbn [rev]. by rewrite rev_involutive.
Qed.
Lemma walk_trimmed d s : walk d (split_byte "/" (trim_right_byte "/" s)) = walk d (split_byte "/" s).
Proof.
  induction s as [|a s IH] using rev_ind; [done|]. destruct (decide (a = "/"%char)) as [->|H].
  - by rewrite trim_right_snoc, IH, walk_trailing.
  - by rewrite trim_right_other.
Qed.
Lemma trimmed_head s : forall q, trim_right_byte "/" s = q -> q = [] \/ exists a t, s = a :: t /\ exists t', q = a :: t'.
Proof.
  induction s as [|a s IH] using rev_ind; intros q <-; [by left|]. destruct (decide (a = "/"%char)) as [->|H].
  - rewrite trim_right_snoc. destruct (IH _ eq_refl) as [->|(b & t & -> & t' & Ht)]; [by left|].
    right. exists b, (t ++ ["/"%char]). split; [done|]. by exists t'.
  - rewrite trim_right_other by done. right. destruct s as [|b s]; [exists a, []|exists b, (s ++ [a])]; (split; [done|by eexists]).
Qed.

Lemma static_registered prefix :
  filepath_Join [static_prefix prefix; L "/*"] = slashed (walk [] (split_byte "/" prefix) ++ [L "*"]).
Proof.
  assert (exists q, static_prefix prefix = q /\ (q = [] \/ exists t, q = "/"%char :: t) /\
    walk [] (split_byte "/" q) = walk [] (split_byte "/" prefix)) as (q & -> & Hq & Hw).
  { unfold static_prefix. destruct prefix as [|c p]; [exists []; split_and!; [done|by left|done]|].
    destruct (Ascii.eqb_spec c "/") as [->|Hc].
    - eexists. split; [reflexivity|]. split; [|apply walk_trimmed].
      destruct (trimmed_head ("/"%char :: p) _ eq_refl) as [->|(a & t & [= <- <-] & t' & ->)]; [by left|right; by exists t'].
    - eexists. split; [reflexivity|]. split; [|rewrite walk_trimmed; apply walk_leading].
      destruct (trimmed_head ("/"%char :: c :: p) _ eq_refl) as [->|(a & t & [= <- <-] & t' & ->)]; [by left|right; by exists t']. }
  rewrite <- Hw. clear Hw prefix. destruct Hq as [->|(t & ->)].
  - done.
  - unfold filepath_Join. cbn [List.filter negb seqb]. change (negb (seqb (L "/*") [])) with true. change (negb (seqb ("/"%char :: t) [])) with true.
    cbn iota. change (join (L "/") ["/"%char :: t; L "/*"]) with ("/"%char :: t ++ L "//*").
    destruct (Clean_rooted (t ++ L "//*")) as (l & -> & _ & ->). f_equal.
    change (t ++ L "//*") with (t ++ "/"%char :: L "/*"). rewrite split_byte_app, walk_app, walk_leading. done.
Qed.

(** ** The root directory *)
Lemma path_segs_slashed l : Forall proper l -> l <> [] -> path_segs (slashed l) = l /\ path_segs (slashed l ++ L "/") = l.
Proof.
  intros H Hne. unfold path_segs.
  assert (Hj : forall t, join (L "/") l <> t ++ ["/"%char]).
  { apply join_no_trailing. eapply Forall_impl; [exact H|]. by intros x (? & ? & ? & ?). }
  split.
  - unfold slashed. change ("/"%char :: join (L "/") l) with (L "/" ++ join (L "/") l). rewrite trim_prefix_app.
    assert (trim_suffix (L "/") (join (L "/") l) = join (L "/") l) as ->; [|by apply split_join_proper].
    unfold trim_suffix. destruct (has_suffix (L "/") (join (L "/") l)) eqn:E; [|done].
    apply has_suffix_last in E as (t & E). by apply Hj in E.
  - unfold slashed. change (("/"%char :: join (L "/") l) ++ L "/") with (L "/" ++ (join (L "/") l ++ L "/")). rewrite trim_prefix_app.
    assert (trim_suffix (L "/") (join (L "/") l ++ L "/") = join (L "/") l) as ->; [|by apply split_join_proper].
    unfold trim_suffix. assert (has_suffix (L "/") (join (L "/") l ++ L "/") = true) as -> by (apply has_suffix_last; by eexists).
    rewrite app_length. replace (length (join (L "/") l) + length (L "/") - length (L "/")) with (length (join (L "/") l)) by lia.
    by rewrite take_app.
Qed.
Lemma root_unreachable {A} re_ok re_find (v : route A) pre r :
  Forall literal_seg pre -> pre <> [] -> rt_variant v = slashed (pre ++ [L "*"]) ->
  rq_path r = slashed pre \/ rq_path r = slashed pre ++ L "/" -> ~ fits re_ok re_find v r.
Proof.
  intros Hpre Hne Hv Hp (_ & p & Hu & Ha). rewrite Hv in Hu. apply static_pattern in Hu; [|done]. subst p.
  assert (path_segs (rq_path r) = pre) as Hseg.
  { destruct (path_segs_slashed pre) as [H1 H2]; [eapply Forall_impl; [exact Hpre|]; by intros s (? & _)|done|]. by destruct Hp as [->| ->]. }
  rewrite Hseg in Ha. destruct (static_names re_find pre pre) as [_ Hx]. destruct (Hx Ha) as (rest & Hr & E & _).
  rewrite <- (app_nil_r pre) in E at 1. apply app_inv_head in E. by subst.
Qed.

(** ** The redirect of a directory *)
Lemma hex_escape_ok a : a <> "%"%char ->
  (forall r, pct_decode (hex_escape_byte a ++ r) = match pct_decode r with Some s => Some (a :: s) | None => None end) /\
  (a <> "?"%char -> a <> "#"%char -> forall r, url_path_text (hex_escape_byte a ++ r) = hex_escape_byte a ++ url_path_text r).
Proof.
  destruct a as [[] [] [] [] [] [] [] []]; intros H; try (by destruct H); (split; [intros r; vm_compute hex_escape_byte; cbn [app pct_decode]; done|]);
  intros H1 H2; try (by destruct H1); try (by destruct H2); intros r; reflexivity.
Qed.
Lemma url_path_escaped s : "%"%char ∉ s -> "?"%char ∉ s -> "#"%char ∉ s -> url_path (flat_map hex_escape_byte s) = Some s.
Proof.
  intros H1 H2 H3. unfold url_path. induction s as [|a s IH]; [done|].
  apply not_elem_of_cons in H1 as [H1 H1'], H2 as [H2 H2'], H3 as [H3 H3']. cbn [flat_map].
  destruct (hex_escape_ok a) as [E1 E2]; [done|]. rewrite E2, E1 by done. by rewrite IH.
Qed.
Lemma index_byte_absent c s : c ∉ s -> index_byte c s = None.
Proof.
  induction s as [|a s IH]; intros H; [done|]. apply not_elem_of_cons in H as [H1 H2]. cbn [index_byte].
  assert (Ascii.eqb a c = false) as -> by (apply Ascii.eqb_neq; congruence). by rewrite IH.
Qed.
Lemma redirect_leads l : Forall proper l -> l <> [] ->
  let u := slashed l ++ L "/" in "%"%char ∉ u -> "?"%char ∉ u -> "#"%char ∉ u ->
  url_path (net_location u) = Some u.
Proof.
  intros Hl Hne u H1 H2 H3. unfold net_location. rewrite index_byte_absent by done. rewrite app_nil_r.
  assert (has_suffix (L "/") u = true) as -> by (apply has_suffix_last; by eexists).
  assert (Clean u = slashed l) as ->.
  { unfold u, slashed. cbn [app]. destruct (Clean_rooted (join (L "/") l ++ L "/")) as (l' & -> & _ & ->). unfold slashed. f_equal. f_equal.
    change (join (L "/") l ++ L "/") with (join (L "/") l ++ ["/"%char]). rewrite walk_trailing, split_join_proper, walk_proper by done. done. }
  assert (has_suffix (L "/") (slashed l) = false) as ->.
  { destruct (has_suffix (L "/") (slashed l)) eqn:E; [|done]. exfalso. apply has_suffix_last in E as ([|a t] & E).
    - assert (join (L "/") l = []) as E' by (unfold slashed in E; cbn [app] in E; congruence). by apply join_nonempty in E'.
    - assert (join (L "/") l = t ++ ["/"%char]) as E' by (unfold slashed in E; cbn [app] in E; congruence).
      eapply join_no_trailing; [|exact E']. eapply Forall_impl; [exact Hl|]. by intros x (? & ? & ? & ?). }
  cbn [andb negb]. by apply url_path_escaped.
Qed.
Lemma redirect_target q : let p := "/"%char :: q in Clean p <> L "/" ->
  "%"%char ∉ Clean p -> "?"%char ∉ Clean p -> "#"%char ∉ Clean p ->
  url_path (net_location (Clean p ++ L "/")) = Some (Clean p ++ L "/").
Proof.
  cbv zeta. destruct (Clean_rooted q) as (l & -> & Hl & _). intros Hne H1 H2 H3. apply redirect_leads; [done|by intros ->|..];
    (apply not_elem_of_app; split; [done|apply (bool_decide_eq_false _); by vm_compute]).
Qed.
(** the redirect stays on the host, and is plain ASCII *)
Lemma hex_escape_plain a : Forall (fun b => (N_of_ascii b < 128)%N) (hex_escape_byte a) /\ (a <> "/"%char -> exists b r, hex_escape_byte a = b :: r /\ b <> "/"%char).
Proof. destruct a as [[] [] [] [] [] [] [] []]; (split; [by repeat constructor|]); intros H; try (by destruct H); vm_compute; eexists _, _; (split; [reflexivity|done]). Qed.
Lemma escaped_plain s : Forall (fun b => (N_of_ascii b < 128)%N) (flat_map hex_escape_byte s).
Proof. induction s as [|a s IH]; [constructor|]. cbn [flat_map]. apply Forall_app. split; [apply hex_escape_plain|exact IH]. Qed.
Lemma escaped_head s : head s <> Some "/"%char -> head (flat_map hex_escape_byte s) <> Some "/"%char.
Proof.
  destruct s as [|a s]; [done|]. cbn [head flat_map]. intros H. destruct (hex_escape_plain a) as [_ (b & r & -> & Hb)]; [congruence|]. cbn [app head]. congruence.
Qed.
Lemma slashed_head l y : Forall proper l -> head y <> Some "/"%char -> exists z, slashed l ++ y = "/"%char :: z /\ head z <> Some "/"%char.
Proof.
  intros Hl Hy. eexists. split; [unfold slashed; cbn [app]; reflexivity|]. destruct l as [|x l]; [done|]. inversion Hl as [|? ? (Hx & _ & _ & Hs) _]; subst.
  assert (exists t, join (L "/") (x :: l) = x ++ t) as [t ->] by (destruct l; [exists []; cbn; by rewrite app_nil_r|eexists; reflexivity]).
  destruct x as [|a x]; [done|]. cbn. intros E. apply Hs. injection E as ->. left.
Qed.
Lemma redirect_tail w' qq : head qq <> Some "/"%char ->
  let c := Clean ("/"%char :: w') in
  exists rest, flat_map hex_escape_byte ((if has_suffix (L "/") ("/"%char :: w') && negb (has_suffix (L "/") c) then c ++ L "/" else c) ++ qq) = "/"%char :: rest /\
    head rest <> Some "/"%char /\ Forall (fun b => (N_of_ascii b < 128)%N) rest.
Proof.
  intros Hq c. subst c. destruct (Clean_rooted w') as (l' & -> & Hl' & _).
  assert (exists z, (if has_suffix (L "/") ("/"%char :: w') && negb (has_suffix (L "/") (slashed l')) then slashed l' ++ L "/" else slashed l') ++ qq = "/"%char :: z /\ head z <> Some "/"%char) as (z & -> & Hz).
  { destruct (has_suffix (L "/") ("/"%char :: w') && negb (has_suffix (L "/") (slashed l'))) eqn:E; [|by apply slashed_head].
    destruct l' as [|x l']; [by rewrite andb_false_r in E|]. inversion Hl' as [|? ? (Hx & _ & _ & Hs) _]; subst.
    rewrite <- app_assoc. unfold slashed. eexists. split; [cbn [app]; reflexivity|].
    assert (exists t, join (L "/") (x :: l') = x ++ t) as [t ->] by (destruct l'; [exists []; cbn; by rewrite app_nil_r|eexists; reflexivity]).
    destruct x as [|a x]; [done|]. cbn. intros E'. apply Hs. injection E' as ->. left. }
  cbn [flat_map]. change (hex_escape_byte "/") with (L "/"). eexists. split; [reflexivity|]. split; [by apply escaped_head|apply escaped_plain].
Qed.
Lemma redirect_stays q : exists rest, net_location (Clean ("/"%char :: q) ++ L "/") = "/"%char :: rest /\ head rest <> Some "/"%char /\
  Forall (fun b => (N_of_ascii b < 128)%N) rest.
Proof.
  destruct (Clean_rooted q) as (l & -> & Hl & _). set (w := join (L "/") l ++ L "/"). change (slashed l ++ L "/") with ("/"%char :: w). unfold net_location.
  destruct (index_byte "?" ("/"%char :: w)) as [i|] eqn:E; [|by apply (redirect_tail w [])].
  destruct i as [|i]; [exfalso; apply index_byte_Some in E as (E & _ & _); cbn [take app] in E; congruence|].
  apply index_byte_Some in E as (E & _ & Hi). cbn [take drop] in *. apply (redirect_tail (take i w) (drop i w)).
  assert (w = take i w ++ "?"%char :: drop (S i) w) as E' by (cbn [app] in E; injection E as E; exact E). rewrite E'.
  rewrite drop_app_alt; [done|]. rewrite take_length. cbn [length] in Hi. lia.
Qed.
