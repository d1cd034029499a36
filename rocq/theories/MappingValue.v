(** The Bind2 methods on values that are not passed through a pointer. *)
From Coq Require Import ZArith NArith.
From Verif Require Import Base GoStr GoStrFacts Strconv UtilSpec StrconvFacts Header Binding BindingSpec BindingFacts BindingTop BindingMore
  Mapping MappingSpec MappingFacts MappingFiles MappingWalk MappingTop MappingCalls.

Section Value.
Context {D : Type} (G : golib D) (H : filelib D).
Notation goval := (goval D).

Lemma zero_array_dec t : (exists e, t = TArray 0 e) \/ ~ exists e, t = TArray 0 e.
Proof. destruct t; try (right; by intros [? ?]). destruct n; [left; by eexists|right; by intros [? ?]]. Qed.
Lemma texts_addr acc f t (v : goval) vals a b : (forall e, t <> TArray 0 e) ->
  by_texts G acc f t v vals = (a, MOk b) -> acc = settable.
Proof.
  intros Ht. assert (forall t, done (setWithProperType G acc (hd [] vals) f t v) = (a, MOk b) -> acc = settable) as Hone.
  { intros t' E. apply done_ok in E as [-> E]. by apply proper_settable in E. }
  destruct t; try apply Hone; cbn [by_texts].
  - unfold setSlice. destruct (setArray _ _ _ _ _ _) as [l o]. destruct o; try discriminate. intros E.
    apply done_ok in E as [-> E]. by apply assign_ok in E as [_ ->].
  - destruct (Nat.eqb_spec (length vals) n) as [<-|]; cbn [negb]; [|done]. destruct v; try done.
    destruct (setArray G acc _ _ _ _) as [l' o] eqn:Es. intros E. apply done_ok in E as [-> E]. injection E as <- ->.
    destruct vals as [|x vals]; [by destruct (Ht t)|]. by apply (array_settable _ _ _ _ (x :: vals)) in Es.
Qed.
Lemma set_file_addr acc d t (v a : goval) : set_file G acc d t v = (a, BOk) -> acc = settable.
Proof.
  destruct t; cbn [set_file]; try done.
  - by destruct (a_hidden acc).
  - intros E. by apply assign_ok in E as [_ ->].
  - by destruct (a_hidden acc).
  - destruct (a_hidden acc); [done|]. destruct (resolve G t) eqn:Er; try done. intros E. by apply assign_ok in E as [_ ->].
Qed.
Lemma files_addr n : forall acc ups t (v a : goval), typed G t v -> ups <> [] ->
  setByMultipartFormFile G n acc ups t v = (a, BOk) -> acc = settable.
Proof.
  induction n as [|n IH]; [done|]. intros acc ups t v a Ht Hu E.
  assert (forall t, match ups with d :: _ => set_file G acc d t v | [] => (v, BPanic (L "index out of range")) end = (a, BOk) -> acc = settable) as Hone.
  { intros t'. destruct ups as [|d ups]; [done|]. apply set_file_addr. }
  destruct t; try (by apply (Hone _ E)); cbn [setByMultipartFormFile] in E.
  - destruct (each_file _ ups _) as [l o] eqn:Es. destruct o; try discriminate. by apply assign_ok in E as [_ ->].
  - destruct (Nat.eqb_spec n0 (length ups)) as [->|]; cbn [negb] in E; [|done].
    inversion Ht as [| | | | |? ? Hx| | | | | |? ? l Hl' Hf| | | |]; subst; [done|].
    destruct ups as [|d ups]; [done|]. destruct l as [|x l]; [done|]. cbn [each_file] in E.
    destruct (setByMultipartFormFile G n acc [d] t x) as [x' o] eqn:Ex.
    destruct o; try (by injection E as _ E).
    apply (IH acc [d] t x x'); [by apply Forall_cons in Hf as [? _]|done|exact Ex].
Qed.
Lemma written_addr n s tag acc g u w v' b : typed G u w -> must_write G H s tag g u w ->
  mapping G H n s tag acc g u w = (v', MOk b) -> acc = settable.
Proof.
  intros Ht Hw E. destruct n as [|n]; [done|]. destruct Hw as [(Hp & Ha & [Ho Hb] & Hg)|([e ->] & -> & Hs)].
  - assert (~ skipped tag g) as Hs.
    { destruct Hg as [[vals Hg]|[ups Hg]]; [by apply given_texts_eq in Hg as (_ & ? & _)|by apply given_files_eq in Hg as (? & _)]. }
    rewrite mapping_core in E by done. pose proof (core_step G H (mapping G H n s tag) n s tag acc g u w Hs) as Hst. rewrite E in Hst.
    inversion Hst as [fs vs Hg' Hst' Em E1| |Hg' Hn E1|vals Hn Hg' E1|ups Hn Hg' E1].
    + exfalso. destruct Hb as [Hb|Hb]; [|done]. destruct Hg' as [Hg'|Hg']; [congruence|done].
    + done.
    + by apply texts_addr in E1.
    + apply done_ok in E1 as [_ E1]. apply files_addr in E1; [done|done|]. by destruct Hg' as (? & ? & ? & ? & _ & _ & _ & ?).
  - assert (~ skipped tag g) as Hk by (by apply stirs_not_skipped in Hs). rewrite mapping_none in E by done.
    destruct (mapping _ _ _ _ _ _ _ _ _) as [x [b'|]] eqn:Em; [|done].
    assert (b' = true) as ->.
    { apply (set_stirs G H _ _ _ _ _ _ _ _ _ (stirs_open _ _ _ _ _ _ _ Hs) Em). eapply stirs_same; [|exact Hs]. apply same_none. }
    apply done_ok in E as [_ E]. by apply assign_ok in E as [_ ->].
Qed.
Lemma inside_typed t (v : goval) fs vs i g u w : wf_files G H -> typed G t v -> inside H t v fs vs -> fs !! i = Some (g, u) -> vs !! i = Some w -> typed G u w.
Proof.
  intros Hfiles Ht Hin Hi Hj. destruct Hin as [fs vs|d].
  - inversion Ht; subst; try done. match goal with K : Forall2 _ fs vs |- _ => rename K into Hf end. apply (Forall2_lookup_lr _ _ _ _ _ _ Hf Hi) in Hj. exact Hj.
  - apply (Forall2_lookup_lr _ _ _ _ _ _ (wf_open _ _ Hfiles d) Hi Hj).
Qed.
Lemma copied_open s tag f t v g u w : copied H s tag f t v g u w -> must_write G H s tag g u w -> open_field f.
Proof. intros [f' t' v'|f' t' v' fs vs i g' u' w' h u'' w'' (Ho & _) _ _ _ _] Hw; [|done]. destruct Hw as [(_ & _ & [Ho _] & _)|(_ & _ & Hs)]; [done|by apply stirs_open in Hs]. Qed.
Lemma copied_fails s tag f t v g u w : copied H s tag f t v g u w -> forall n acc v' b, wf_files G H -> typed G t v ->
  must_write G H s tag g u w -> a_addr acc = false -> mapping G H n s tag acc f t v <> (v', MOk b).
Proof.
  induction 1 as [f t v|f t v fs vs i g u w h u' w' (Ho & Hs & Hg) Hin Hi Hj Hc IH]; intros n acc v' b Hfiles Ht Hw Ha E.
  - apply written_addr in E; [by subst acc|done..].
  - destruct n as [|n]; [done|]. assert (~ pointer t) as Hp by (destruct Hin; by intros [? ?]).
    rewrite mapping_core in E by done. pose proof (core_step G H (mapping G H n s tag) n s tag acc f t v Hs) as Hst. rewrite E in Hst.
    pose proof (inside_struct_kind _ _ _ _ _ Hin) as Hstr.
    inversion Hst as [fs0 vs0 Hg' _ Em E1| |Hg' Hn E1|vals Hn Hg' E1|ups Hn Hg' E1].
    + apply inside_members in Hin as Em'. rewrite Em in Em'. injection Em' as -> ->.
      destruct (walk_fields _ _ _ _) as [vs' o] eqn:Ew. cbn [fst snd] in *. subst o.
      destruct (walk_ok _ _ _ _ _ _ Ew) as (_ & W & _). destruct (W i g u w Hi Hj) as (y & _ & [[Hno _]|(_ & b' & Eg & _)]).
      * by apply copied_open in Hc.
      * refine (IH _ _ _ _ Hfiles _ Hw _ Eg); [by eapply inside_typed|done].
    + done.
    + destruct Hn as [Hn|Hn]; [|done]. destruct Hg as [Hg|Hg]; [congruence|]. destruct Hg. left. by exists vals.
    + destruct Hn as [Hn|Hn]; [|done]. destruct Hg as [Hg|Hg]; [congruence|]. destruct Hg. right. by exists ups.
Qed.
Lemma value_fails n c s tag t v g u w out : wf_files G H -> reads2 c s tag -> ~ text_map t -> ~ pointer t -> typed G t v ->
  copied H s tag emptyField t v g u w -> must_write G H s tag g u w ->
  do_bind2 G H n c (Some (t, v)) <> (out, BOk).
Proof.
  intros Hfiles Hr Hm Hp Ht Hc Hw E. rewrite (by_value_split G H n c s tag) in E by done.
  unfold map_obj in E. destruct (mapping G H n s tag fixed emptyField t v) as [v' m] eqn:Em.
  assert (snd (mapping G H n s tag fixed emptyField t v) <> MStop BOk) as Hst by apply mapping_stop. rewrite Em in Hst. cbn [snd] in Hst.
  destruct m as [b|[]]; try done. by apply (copied_fails _ _ _ _ _ _ _ _ Hc n fixed v' b).
Qed.

(** ** Nothing to be written *)
Lemma texts_empty acc acc' f e (v : goval) vals : by_texts G acc f (TArray 0 e) v vals = by_texts G acc' f (TArray 0 e) v vals.
Proof. destruct vals; [|done]. cbn [by_texts]. destruct v; done. Qed.
Lemma files_empty n acc acc' e (v : goval) ups : ups <> [] ->
  setByMultipartFormFile G n acc ups (TArray 0 e) v = setByMultipartFormFile G n acc' ups (TArray 0 e) v.
Proof. destruct n; [done|]. by destruct ups. Qed.
Lemma walk_same (rec : access -> field -> gotype -> goval -> goval * mout) acc acc' fs : forall vs,
  (forall i g u w, fs !! i = Some (g, u) -> vs !! i = Some w -> open_field g -> rec (sub_acc acc g) g u w = rec (sub_acc acc' g) g u w) ->
  walk_fields rec acc fs vs = walk_fields rec acc' fs vs.
Proof.
  induction fs as [|[f t] fs IH]; intros [|v vs] Hrec; try done. cbn [walk_fields].
  rewrite (IH vs) by (intros i; apply (Hrec (S i))).
  destruct (negb (f_exported f) && negb (f_anon f)) eqn:Eo; [done|].
  pose proof (Hrec 0 f t v eq_refl eq_refl ltac:(by apply open_field_eq)) as K. unfold sub_acc in K. by rewrite K.
Qed.
Lemma nothing_written n s tag : forall f t v h, open_field f ->
  (forall g u w, copied H s tag f t v g u w -> ~ must_write G H s tag g u w) ->
  mapping G H n s tag (mkAccess h false) f t v = mapping G H n s tag (mkAccess h true) f t v.
Proof.
  induction n as [|n IH]; intros f t v h Ho Hno; [done|].
  destruct (skipped_dec tag f) as [Hs|Hs]; [by rewrite !mapping_skipped|].
  destruct (pointer_dec t) as [[e ->]|Hp].
  - destruct (ptr_shape v) as [[w ->]|[->|Hv]].
    + by rewrite !mapping_some.
    + rewrite !mapping_none by done. destruct (mapping _ _ _ _ _ _ _ _ _) as [w' [[]|]] eqn:Em; [|done..]. exfalso.
      apply (Hno f (TPtr e) (VPtr None)); [constructor|]. right. split; [by eexists|]. split; [done|].
      eapply stirs_same; [apply same_sym, same_none|]. by apply (set_stirs G H _ _ _ _ _ _ _ _ _ Ho Em).
    + by rewrite !mapping_badptr.
  - rewrite !mapping_core by done. unfold core.
    assert (f_anon f = true \/ ~ given s tag f -> kind_struct t = true -> match members H t v with
      | Some (fs, vs) => let '(vs', o) := walk_fields (mapping G H n s tag) (mkAccess h false) fs vs in (with_members H t v vs', o)
      | None => (v, MStop (BPanic type_panic)) end = match members H t v with
      | Some (fs, vs) => let '(vs', o) := walk_fields (mapping G H n s tag) (mkAccess h true) fs vs in (with_members H t v vs', o)
      | None => (v, MStop (BPanic type_panic)) end) as Hw.
    { intros Hg Hk. destruct (members H t v) as [[fs vs]|] eqn:Em; [|done].
      rewrite (walk_same _ (mkAccess h false) (mkAccess h true)); [done|]. intros i g u w Hi Hj Hog. unfold sub_acc. cbn [a_addr].
      apply IH; [done|]. intros g' u' w' Hc. apply Hno. 
      destruct (members_inside _ _ _ _ _ Em) as [(_ & -> & _)|Hin]; [by rewrite lookup_nil in Hi|].
      by apply (copied_into H s tag f t v fs vs i g u w). }
    destruct (kind_struct t && f_anon f) eqn:Ea.
    { apply andb_true_iff in Ea as [Ek Ea]. rewrite Ek. apply Hw; [by left|done]. }
    assert (forall a b : goval * mout, a = b -> (forall x y, a <> (x, MOk y)) \/ (exists x, a = (x, MOk true)) \/
      (a = (v, MOk false) /\ ~ given s tag f) -> match a with
      | (v0, MOk false) => if kind_struct t then match members H t v0 with
        | Some (fs, vs) => let '(vs', o) := walk_fields (mapping G H n s tag) (mkAccess h false) fs vs in (with_members H t v0 vs', o)
        | None => (v0, MStop (BPanic type_panic)) end else (v0, MOk false)
      | (v0, MOk true) => (v0, MOk true) | (v0, MStop o) => (v0, MStop o) end = match b with
      | (v0, MOk false) => if kind_struct t then match members H t v0 with
        | Some (fs, vs) => let '(vs', o) := walk_fields (mapping G H n s tag) (mkAccess h true) fs vs in (with_members H t v0 vs', o)
        | None => (v0, MStop (BPanic type_panic)) end else (v0, MOk false)
      | (v0, MOk true) => (v0, MOk true) | (v0, MStop o) => (v0, MStop o) end) as Hmatch.
    { intros a b <- [Hn|[[x ->]|[-> Hg]]]; [destruct a as [x [y|]]; [by destruct (Hn x y)|done]|done|].
      destruct (kind_struct t) eqn:Ek; [apply Hw; [by right|done]|done]. }
    destruct (try2_cases G n s tag (mkAccess h false) f t v Hs) as [[Hg E1]|[(vals & Hg & E1)|(ups & Hg & E1)]];
    destruct (try2_cases G n s tag (mkAccess h true) f t v Hs) as [[Hg2 E2]|[(vals2 & Hg2 & E2)|(ups2 & Hg2 & E2)]];
      try (exfalso; first [by destruct Hg; left; eexists|by destruct Hg; right; eexists|by destruct Hg2; left; eexists|by destruct Hg2; right; eexists
        |by apply (texts_not_files _ _ _ _ _ Hg) in Hg2|by apply (texts_not_files _ _ _ _ _ Hg2) in Hg]).
    + apply Hmatch; [by rewrite E1, E2|]. right. right. by rewrite E1.
    + assert (vals2 = vals) as -> by (by eapply texts_unique2).
      assert (exists e, t = TArray 0 e) as [e ->].
      { destruct (zero_array_dec t) as [|Hz]; [done|]. exfalso. apply (Hno f t v); [constructor|]. left.
        split; [done|]. split; [intros e ->; by apply Hz; eexists|]. split; [split; [done|]|left; by exists vals].
        destruct (f_anon f); [right|by left]. intros K. apply kind_struct_eq in K. by rewrite K in Ea. }
      apply Hmatch; [rewrite E1, E2; apply texts_empty|]. rewrite E1.
      destruct (by_texts G (mkAccess h false) f (TArray 0 e) v vals) as [x [y|]] eqn:Eb; [|left; intros ? ? ?; discriminate]. apply by_texts_any in Eb as [-> _]. right. left. by eexists.
    + assert (ups2 = ups) as -> by (by eapply files_unique).
      assert (exists e, t = TArray 0 e) as [e ->].
      { destruct (zero_array_dec t) as [|Hz]; [done|]. exfalso. apply (Hno f t v); [constructor|]. left.
        split; [done|]. split; [intros e ->; by apply Hz; eexists|]. split; [split; [done|]|right; by exists ups].
        destruct (f_anon f); [right|by left]. intros K. apply kind_struct_eq in K. by rewrite K in Ea. }
      assert (ups <> []) as Hu by (by destruct Hg as (? & ? & ? & ? & _ & _ & _ & ?)).
      apply Hmatch; [rewrite E1, E2; by rewrite (files_empty n _ (mkAccess h true)) by done|]. rewrite E1.
      destruct (done (setByMultipartFormFile G n (mkAccess h false) ups (TArray 0 e) v)) as [x [y|]] eqn:Eb; [|left; intros ? ? ?; discriminate]. apply done_ok in Eb as [-> _]. right. left. by eexists.
Qed.
(** a value is then filled as if it was passed through a pointer *)
Lemma value_same n c s tag e v v' o : reads2 c s tag -> ~ text_map (resolve G e) -> ~ pointer (resolve G e) ->
  (forall g u w, copied H s tag emptyField (resolve G e) v g u w -> ~ must_write G H s tag g u w) ->
  do_bind2 G H (S n) c (Some (TPtr e, VPtr (Some v))) = (Some (TPtr e, VPtr (Some v')), o) ->
  do_bind2 G H n c (Some (resolve G e, v)) = (Some (resolve G e, v'), o).
Proof.
  intros Hr Hm Hp Hno E. rewrite (by_value_split G H n c s tag) by done. rewrite (call_split G H _ c e v s tag Hr Hm), obj_split in E.
  unfold map_obj. change fixed with (mkAccess false false). rewrite nothing_written by (done || apply empty_open).
  change settable with (mkAccess false true) in E. destruct (mapping _ _ _ _ _ _ _ _ _) as [x m]. cbn [fst snd] in E.
  unfold and_validate in *. destruct (outcome m); try (by injection E as <- <-).
Qed.
End Value.
