(** Request targets and the segments they are routed by. *)
From Coq Require Import ZArith NArith.
From Verif Require Import Base GoStr GoStrFacts Strconv Pattern Tree TreeSpec TreeParams Header Router RouterSpec Ctx LastingSpec ParamSpec
  UtilSpec UtilFacts StaticSpec StaticFacts StaticPaths QueryFacts NetQuery NetRedirect RedirectSpec NetRedirectFacts NetPath TargetSpec.

Lemma PathUnescape_spec s : PathUnescape s = pct_decode s.
Proof.
  induction s as [s IH] using (induction_ltof1 _ (@length ascii)). unfold ltof in IH.
  destruct s as [|a s]; [done|]. cbn [PathUnescape pct_decode]. destruct (Ascii.eqb a "%").
  - destruct s as [|x [|y s]]; [done..|]. rewrite !unhex_val, IH by (cbn; lia). by destruct (hex_val x), (hex_val y), (pct_decode s).
  - by rewrite IH by (cbn; lia).
Qed.
Lemma pct_decode_app s t : pct_decode s <> None -> pct_decode (s ++ t) = match pct_decode s, pct_decode t with Some a, Some b => Some (a ++ b) | _, _ => None end.
Proof.
  induction s as [s IH] using (induction_ltof1 _ (@length ascii)). unfold ltof in IH. intros H.
  destruct s as [|a s]; [cbn; by destruct (pct_decode t)|]. cbn [app pct_decode] in *. destruct (Ascii.eqb a "%").
  - destruct s as [|x [|y s]]; [done..|]. cbn [app]. destruct (hex_val x), (hex_val y); try done.
    rewrite IH by (cbn; first [lia|by destruct (pct_decode s)]). destruct (pct_decode s), (pct_decode t); done.
  - rewrite IH by (cbn; first [lia|by destruct (pct_decode s)]). destruct (pct_decode s), (pct_decode t); done.
Qed.
Lemma slashed_cons x l : l <> [] -> slashed (x :: l) = "/"%char :: x ++ slashed l.
Proof. destruct l; [done|]. intros _. unfold slashed. done. Qed.
Lemma spells_path ts vs : Forall2 spells ts vs -> ts <> [] ->
  pct_decode (slashed ts) = Some (slashed vs) /\ "?"%char ∉ slashed ts /\ no_control (slashed ts).
Proof.
  induction 1 as [|t v ts vs (H1 & H2 & H3 & H4) Hl IH]; [done|]. intros _.
  assert (Hs : no_control ["/"%char]) by (apply (bool_decide_eq_true _); vm_compute; reflexivity).
  destruct ts as [|t' ts].
  - apply Forall2_nil_inv_l in Hl as ->. unfold slashed. cbn [join pct_decode]. change (Ascii.eqb "/" "%") with false. cbn iota. rewrite H4.
    split; [done|]. split; [apply not_elem_of_cons; done|]. by apply (Forall_app _ ["/"%char]).
  - destruct IH as (I1 & I2 & I3); [done|]. rewrite (slashed_cons t (t' :: ts)) by done.
    split; [|split].
    + cbn [pct_decode]. change (Ascii.eqb "/" "%") with false. cbn iota. rewrite pct_decode_app by (by rewrite H4). rewrite H4, I1.
      rewrite (slashed_cons v vs); [done|]. intros ->. apply Forall2_length in Hl. discriminate Hl.
    + apply not_elem_of_cons. split; [done|]. apply not_elem_of_app. done.
    + apply (Forall_app _ ["/"%char]). split; [done|]. by apply Forall_app.
Qed.

Section Path.
Variable parseAuthority : gostr -> option gostr.
Lemma target_split front p q : target_front parseAuthority front -> "?"%char ∉ p -> no_control p -> no_control (lead "?" q) ->
  request_path parseAuthority (front ++ "/"%char :: p ++ lead "?" q) = pct_decode ("/"%char :: p).
Proof.
  intros Hf Hq Hc1 Hc2. unfold request_path.
  assert (Hs : no_control ["/"%char]) by (apply (bool_decide_eq_true _); vm_compute; reflexivity).
  assert (Hp : no_control ("/"%char :: p ++ lead "?" q)).
  { apply (Forall_app _ ["/"%char]). split; [done|]. by apply Forall_app. }
  destruct Hf as [|s a Hsch Ha1 Ha2 Ha3 Ha4].
  - cbn [app]. rewrite ctl_free_spec by done. cbn [negb orb].
    assert (seqb ("/"%char :: p ++ lead "?" q) [] = false) as -> by (by apply seqb_false).
    assert (seqb ("/"%char :: p ++ lead "?" q) (L "*") = false) as -> by (by apply seqb_false).
    unfold getscheme. cbn [getscheme_at]. change (is_alpha "/") with false. change (is_scheme_byte "/") with false. change (Ascii.eqb "/" ":") with false. cbn iota.
    change ("/"%char :: p ++ lead "?" q) with (("/"%char :: p) ++ lead "?" q). rewrite split_at_app by (apply not_elem_of_cons; done).
    change (has_prefix (L "/") ("/"%char :: p)) with true. cbn [negb]. rewrite seqb_refl. cbn [negb andb]. apply PathUnescape_spec.
  - destruct Hsch as (c & t & -> & Hc & Ht).
    replace (((c :: t) ++ L "://" ++ a) ++ "/"%char :: p ++ lead "?" q) with ((c :: t) ++ ":"%char :: ((L "//" ++ a ++ "/"%char :: p) ++ lead "?" q)).
    2:{ change (L "://") with [":"; "/"; "/"]%char. change (L "//") with ["/"; "/"]%char. cbn [app]. rewrite <- !app_assoc. cbn [app]. by rewrite <- ?app_assoc. }
    assert (Hall : no_control ((c :: t) ++ ":"%char :: ((L "//" ++ a ++ "/"%char :: p) ++ lead "?" q))).
    { apply Forall_app. split.
      - assert (Hsb : Forall scheme_byte (c :: t)) by (constructor; [by left|done]). eapply Forall_impl; [exact Hsb|].
        intros x [Hx|[Hx|Hx]]; [unfold letter in Hx; lia|unfold UtilSpec.is_digit in Hx; lia|].
        revert x Hx. apply Forall_forall. apply (bool_decide_eq_true _). vm_compute. reflexivity.
      - apply (Forall_app _ [":"%char]). split; [apply (bool_decide_eq_true _); vm_compute; reflexivity|].
        apply Forall_app. split; [|done]. apply Forall_app. split; [apply (bool_decide_eq_true _); vm_compute; reflexivity|].
        apply Forall_app. split; [done|]. apply (Forall_app _ ["/"%char]). done. }
    rewrite ctl_free_spec by done. cbn [negb orb].
    assert (seqb ((c :: t) ++ ":"%char :: ((L "//" ++ a ++ "/"%char :: p) ++ lead "?" q)) [] = false) as -> by (by apply seqb_false).
    assert (seqb ((c :: t) ++ ":"%char :: ((L "//" ++ a ++ "/"%char :: p) ++ lead "?" q)) (L "*") = false) as ->.
    { apply seqb_false. intros E. apply (f_equal (@length ascii)) in E. change (length (L "*")) with 1 in E. rewrite app_length in E. cbn [length] in E. lia. }
    unfold getscheme. cbn [app getscheme_at]. rewrite (proj2 (is_alpha_spec c)) by done.
    destruct (getscheme_some ((c :: t) ++ ":"%char :: ((L "//" ++ a ++ "/"%char :: p) ++ lead "?" q)) t 1 ((L "//" ++ a ++ "/"%char :: p) ++ lead "?" q)) as (n & E & Hn); [done|lia|].
    match type of E with ?x = _ => match goal with |- match ?y with _ => _ end = _ => replace y with x by done end end. rewrite E.
    rewrite split_at_app.
    2:{ apply not_elem_of_app. split; [apply (bool_decide_eq_false _); vm_compute; reflexivity|]. apply not_elem_of_app. split; [done|]. apply not_elem_of_cons. done. }
    change (has_prefix (L "/") (L "//" ++ a ++ "/"%char :: p)) with true. cbn [negb].
    assert (seqb (take n ((c :: t) ++ ":"%char :: ((L "//" ++ a ++ "/"%char :: p) ++ lead "?" q))) [] = false) as -> by (destruct n; [lia|]; by apply seqb_false).
    cbn [negb andb]. rewrite has_prefix_app.
    change (drop 2 (L "//" ++ a ++ "/"%char :: p)) with (a ++ "/"%char :: p).
    rewrite GetterFacts.index_byte_app by done. rewrite take_app, drop_app.
    destruct (parseAuthority a); [|done]. apply PathUnescape_spec.
Qed.
Lemma asked_path uri vs : asks_for parseAuthority uri vs -> request_path parseAuthority uri = Some (slashed vs).
Proof.
  intros (front & ts & q & Hf & Hne & -> & Hq & Hs). destruct (spells_path ts vs Hs Hne) as (H1 & H2 & H3).
  unfold slashed in H1, H2, H3 |- *. cbn [app]. rewrite target_split; [exact H1|done| | |done].
  - by apply not_elem_of_cons in H2 as [_ ?].
  - by apply Forall_cons_1 in H3 as [_ ?].
Qed.
Lemma asked_badly uri : asks_badly parseAuthority uri -> request_path parseAuthority uri = None.
Proof.
  intros (front & p & q & Hf & -> & Hq & Hc1 & Hc2 & Hp). rewrite target_split by done. cbn [pct_decode]. change (Ascii.eqb "/" "%") with false. cbn iota.
  by rewrite Hp.
Qed.
End Path.

(** ** Every text can be sent *)
Definition pct_all (v : gostr) : gostr := flat_map (fun a => ["%"%char; digit_char (N_of_ascii a / 16); digit_char (N_of_ascii a mod 16)]) v.
Lemma pct_all_spells v : spells (pct_all v) v.
Proof.
  assert (H : Forall (fun a => a ∈ L "%0123456789abcdef") (pct_all v) /\ pct_decode (pct_all v) = Some v).
  { unfold pct_all. induction v as [|a v [I1 I2]]; [split; [constructor|done]|].
    assert (Ha : exists x y, digit_char (N_of_ascii a / 16) = x /\ digit_char (N_of_ascii a mod 16) = y /\ x ∈ L "%0123456789abcdef" /\ y ∈ L "%0123456789abcdef" /\
      exists h l, hex_val x = Some h /\ hex_val y = Some l /\ ascii_of_N (16 * h + l) = a).
    { eexists _, _. split; [reflexivity|]. split; [reflexivity|].
      destruct a as [[] [] [] [] [] [] [] []]; (split; [apply (bool_decide_eq_true _); vm_compute; reflexivity|]; split; [apply (bool_decide_eq_true _); vm_compute; reflexivity|];
        eexists _, _; split; [vm_compute; reflexivity|]; split; [vm_compute; reflexivity|]; reflexivity). }
    destruct Ha as (x & y & Ex & Ey & Hx & Hy & h & l & Eh & El & E). cbn [flat_map app]. rewrite Ex, Ey. split.
    - constructor; [apply (bool_decide_eq_true _); vm_compute; reflexivity|]. constructor; [done|]. by constructor.
    - cbn [pct_decode]. change (Ascii.eqb "%" "%") with true. cbn iota. by rewrite Eh, El, I2, E. }
  destruct H as [H1 H2]. split_and!; [| | |done].
  - intros E. rewrite Forall_forall in H1. apply H1 in E. revert E. apply (bool_decide_eq_false _). vm_compute. reflexivity.
  - intros E. rewrite Forall_forall in H1. apply H1 in E. revert E. apply (bool_decide_eq_false _). vm_compute. reflexivity.
  - eapply Forall_impl; [exact H1|]. intros a. cbv beta. revert a. apply Forall_forall. apply (bool_decide_eq_true _). vm_compute. reflexivity.
Qed.
Lemma every_target pa vs : vs <> [] -> exists uri, asks_for pa uri vs /\ ascii_only uri.
Proof.
  intros Hne. exists (slashed (map pct_all vs)). split.
  - exists [], (map pct_all vs), None. split; [constructor|]. split; [by destruct vs|]. split; [by rewrite app_nil_r|]. split; [constructor|].
    clear Hne. induction vs as [|v vs IH]; constructor; [apply pct_all_spells|done].
  - apply Forall_forall. intros c Hc. unfold slashed in Hc. apply elem_of_cons in Hc as [->|Hc]; [done|]. apply join_bytes in Hc as [->|(x & Hx & Hc)]; [done|].
    apply elem_of_list_fmap in Hx as (v & -> & _). apply elem_of_list_In, in_flat_map in Hc as (a & _ & Hc). apply elem_of_list_In in Hc.
    revert c Hc. apply Forall_forall. destruct a as [[] [] [] [] [] [] [] []]; apply (bool_decide_eq_true _); vm_compute; reflexivity.
Qed.

(** ** The segments *)
Lemma segs_plain vs : (forall t, join (L "/") vs <> t ++ ["/"%char]) -> path_segs (slashed vs) = split_byte "/" (join (L "/") vs).
Proof.
  intros H. unfold path_segs, slashed. change ("/"%char :: join (L "/") vs) with (L "/" ++ join (L "/") vs). rewrite trim_prefix_app.
  rewrite trim_suffix_no; [done|]. destruct (has_suffix _ _) eqn:E; [|done]. apply has_suffix_spec in E as [t E]. by destruct (H t).
Qed.
Lemma segs_of vs : vs <> [] -> Forall (fun v => "/"%char ∉ v) vs -> last vs <> Some [] -> path_segs (slashed vs) = vs.
Proof.
  intros Hne Hs Hl. rewrite segs_plain; [by apply (split_join "/")|]. intros t E. apply Hl.
  rewrite <- (split_join "/" vs Hne Hs). apply split_empty_last; [|apply last_Some; by exists t].
  change ["/"%char] with (L "/"). rewrite E. by destruct t.
Qed.
Lemma split_prefix vs1 s : Forall (fun v => "/"%char ∉ v) vs1 ->
  split_byte "/" (join (L "/") (vs1 ++ [s])) = vs1 ++ split_byte "/" s.
Proof.
  induction 1 as [|v vs1 Hv Hvs IH]; [done|]. cbn [app]. rewrite join_cons by (by destruct vs1).
  change (L "/" ++ ?x) with ("/"%char :: x). rewrite (split_byte_Some "/" _ (length v)) by (by rewrite GetterFacts.index_byte_app).
  rewrite take_app. f_equal. rewrite <- IH. f_equal.
  replace (S (length v)) with (length (v ++ ["/"%char])) by (rewrite app_length; cbn; lia).
  replace (v ++ "/"%char :: join (L "/") (vs1 ++ [s])) with ((v ++ ["/"%char]) ++ join (L "/") (vs1 ++ [s])) by (by rewrite <- app_assoc). by rewrite drop_app.
Qed.
Lemma join_prefix vs1 vs2 : vs2 <> [] -> join (L "/") (vs1 ++ vs2) = join (L "/") (vs1 ++ [join (L "/") vs2]).
Proof.
  intros H. induction vs1 as [|v vs1 IH]; [done|]. cbn [app]. rewrite !join_cons by (by destruct vs1, vs2). by rewrite IH.
Qed.
Lemma last_end (a s : gostr) : s <> [] -> last (a ++ s) = last s.
Proof. destruct s as [|x w _] using rev_ind; [done|]. intros _. by rewrite app_assoc, !last_snoc. Qed.
Lemma join_last vs1 s : s <> [] -> last (join (L "/") (vs1 ++ [s])) = last s.
Proof.
  intros H. induction vs1 as [|v vs1 IH]; [done|]. cbn [app]. rewrite join_cons by (by destruct vs1).
  assert (join (L "/") (vs1 ++ [s]) <> []). { intros E. rewrite E in IH. by destruct s as [|x w _] using rev_ind; [|rewrite last_snoc in IH]. }
  rewrite app_assoc, last_end by done. done.
Qed.
Lemma segs_rest vs1 vs2 : Forall (fun v => "/"%char ∉ v) vs1 -> join (L "/") vs2 <> [] -> (forall t, join (L "/") vs2 <> t ++ ["/"%char]) ->
  path_segs (slashed (vs1 ++ vs2)) = vs1 ++ split_byte "/" (join (L "/") vs2).
Proof.
  intros H1 H2 H3. assert (Hne : vs2 <> []) by (by intros ->). rewrite segs_plain.
  - rewrite join_prefix by done. by apply split_prefix.
  - intros t E. rewrite join_prefix in E by done. apply (f_equal last) in E. rewrite join_last, last_snoc in E by done.
    apply last_Some in E as [u E]. by apply (H3 u).
Qed.

(** ** Bindings *)
Section Bindings.
Variable re_find : gostr -> gostr -> option (list gostr).
Lemma holder_lasts c h t : p_typ h = PHolder -> p_parsed h <> L "_" -> forall g, p_parsed h ∈ lasting_names g (c ++ h :: t).
Proof.
  intros Ht Hn. induction c as [|q c IH]; intros g.
  - destruct t as [|y t]; cbn [app lasting_names route_names]; rewrite Ht, decide_False by done; left.
  - cbn [app]. assert (exists y l, c ++ h :: t = y :: l) as (y & l & E) by (destruct c; by eexists _, _).
    specialize (IH g) as IHg. specialize (IH (S g)). rewrite E in IH, IHg |- *. cbn [lasting_names]. destruct (p_typ q); [done|done| |]; apply elem_of_app; by right.
Qed.
Lemma rest_lasts c h : p_typ h = PMatchAll -> p_parsed h <> [] -> p_parsed h <> L "_" -> forall g, p_parsed h ∈ lasting_names g (c ++ [h]).
Proof.
  intros Ht H0 Hn. induction c as [|q c IH]; intros g.
  - cbn [app lasting_names route_names]. rewrite Ht, !decide_False by done. left.
  - cbn [app]. assert (exists y l, c ++ [h] = y :: l) as (y & l & E) by (destruct c; by eexists _, _).
    specialize (IH g) as IHg. specialize (IH (S g)). rewrite E in IH, IHg |- *. cbn [lasting_names]. destruct (p_typ q); [done|done| |]; apply elem_of_app; by right.
Qed.
Lemma lasting_bound tbl ss p m k v : bindings re_find tbl ss p m -> route_accepts re_find p ss -> NoDup (route_names 0 p) ->
  k ∈ lasting_names 0 p -> bound_by re_find 0 p ss k v -> m !! k = Some v.
Proof.
  intros Hb Ha Hn Hk Hv. destruct (bn_lasting _ _ _ _ _ Hb k Hk) as (v' & Hm & Hl).
  apply (binds_lookup re_find p ss 0 k v Ha Hn) in Hv. congruence.
Qed.
Lemma accepts_at p ss : route_accepts re_find p ss -> forall c h t, p = c ++ h :: t -> exists v, ss !! length c = Some v.
Proof.
  induction 1 as [p s Hs|p s ss Ht Hne|p r s ss Hs Hr IH]; intros c h t E.
  - destruct c as [|y c]; [by exists s|]. destruct c; discriminate E.
  - destruct c as [|y c]; [by exists s|]. destruct c; discriminate E.
  - destruct c as [|y c]; [by exists s|]. injection E as -> E. apply (IH _ _ _ E).
Qed.
Lemma holder_value tbl ss p m c h t : bindings re_find tbl ss p m -> route_accepts re_find p ss -> NoDup (route_names 0 p) ->
  p = c ++ h :: t -> p_typ h = PHolder -> p_parsed h <> L "_" -> m !! p_parsed h = ss !! length c.
Proof.
  intros Hb Ha Hn E Ht Hu. destruct (accepts_at p ss Ha c h t E) as [v Hv]. rewrite Hv.
  apply (lasting_bound tbl ss p m _ _ Hb Ha Hn); [subst p; by apply holder_lasts|].
  exists c, h, t. split; [done|]. unfold own_bind. rewrite Ht. split_and!; [done..|]. by rewrite head_lookup, lookup_drop, Nat.add_0_r.
Qed.
Lemma rest_value tbl ss p m c h : bindings re_find tbl ss p m -> route_accepts re_find p ss -> NoDup (route_names 0 p) ->
  p = c ++ [h] -> p_typ h = PMatchAll -> p_parsed h <> [] -> p_parsed h <> L "_" -> m !! p_parsed h = Some (join (L "/") (drop (length c) ss)).
Proof.
  intros Hb Ha Hn E Ht H0 Hu.
  apply (lasting_bound tbl ss p m _ _ Hb Ha Hn); [subst p; by apply rest_lasts|].
  exists c, h, []. split; [done|]. unfold own_bind. by rewrite Ht, decide_False.
Qed.
End Bindings.
