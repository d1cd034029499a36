(** Facts about the mapping of the Bind2 methods: whole calls. *)
From Coq Require Import ZArith NArith.
From Verif Require Import Base GoStr GoStrFacts Strconv UtilSpec StrconvFacts Header Binding BindingSpec BindingFacts BindingTop BindingMore Mapping MappingSpec MappingFacts MappingFiles MappingWalk.

Section Top.
Context {D : Type} (G : golib D) (H : filelib D).
Notation goval := (goval D).
Implicit Types s : setter D.

(** ** Types along the way *)
Lemma reach_kept (Hlib : wf_lib G) t v t' v' : reach G t v t' v' -> wf_type t -> typed G t v -> wf_type t' /\ typed G t' v'.
Proof.
  induction 1 as [t v Hn|e v t' v' Hr IH|e t' v' Hr IH]; intros Hw Ht; [done|..].
  - apply IH; [by apply wf_resolve|by apply typed_ptr_inv].
  - assert (wf_type (resolve G e)) as Hwe by (by apply wf_resolve). apply IH; [done|by apply zero_typed].
Qed.
Lemma wf_struct_field fs i (f : field) t : wf_type (TStruct fs) -> fs !! i = Some (f, t) -> wf_type t.
Proof.
  revert i. induction fs as [|[g u] fs IH]; intros [|i] Hw Hi; try done; cbn in Hw, Hi; destruct Hw as [H1 H2].
  - by injection Hi as -> ->.
  - by apply (IH i).
Qed.
Lemma place_kept (Hlib : wf_lib G) s tag f t v p g u w : place2 G s tag f t v p g u w -> wf_type t -> typed G t v -> wf_type u /\ typed G u w.
Proof.
  induction 1 as [f t v|f t v fs vs i g u w p h u' w' Hw Hr Hi Hj Hp IH]; intros Hwf Ht; [done|].
  destruct (reach_kept Hlib _ _ _ _ Hr Hwf Ht) as [K1 K2]. apply IH; [by apply (wf_struct_field fs i g)|by apply (typed_field G fs vs i g)].
Qed.

(** ** What is bound *)
(** a successful call at a place that is given something *)
Lemma given_ok (Hc : forall d, x_close H (x_open H d) = d) s tag f t v p g u w t' x n acc v' b :
  place2 G s tag f t v p g u w -> open_field f -> mapping G H n s tag acc f t v = (v', MOk b) ->
  reach G u w t' x -> binds g t' -> given s tag g ->
  exists w' a n' acc', value_at2 v' p = Some w' /\ leads G u w' t' a /\
    ((exists vals, given_texts s tag g vals /\ by_texts G acc' g t' x vals = (a, MOk true)) \/
     (exists ups, given_files s tag g ups /\ done (setByMultipartFormFile G n' acc' ups t' x) = (a, MOk true))).
Proof.
  intros Hp Hof E Hr Hb Hg. destruct (place_ok G H Hc _ _ _ _ _ _ _ _ _ Hp Hof _ _ _ _ E) as (w' & b' & K1 & _ & K3).
  destruct K3 as [[Hno _]|(Ho & n' & acc' & Eg)]; [by destruct Hb|].
  assert (b' = true) as -> by (apply (set_stirs G H _ _ _ _ _ _ _ _ _ Ho Eg); by apply (stirs_here _ _ _ _ _ _ _ t' x)).
  destruct (K1 eq_refl) as [_ Hv]. assert (~ skipped tag g) as Hs.
  { destruct Hg as [[vals Hg]|[ups Hg]]; [by apply given_texts_eq in Hg as (_ & ? & _)|by apply given_files_eq in Hg as (? & _)]. }
  destruct (chain_ok G H _ _ _ _ _ _ _ Hr Hs _ _ _ _ Eg) as (n1 & acc1 & a & E1 & E2).
  exists w', a, n1, acc1. split; [done|]. split; [by apply E2|].
  rewrite mapping_core in E1; [|by apply reach_nonptr in Hr|done].
  pose proof (core_step G H (mapping G H n1 s tag) n1 s tag acc1 g t' x Hs) as Hst. rewrite E1 in Hst.
  destruct Hb as [_ Hb]. inversion Hst as [fs vs Hg' Ht Em E3| |Hg' Hn E3|vals Hn Hg' E3|ups Hn Hg' E3].
  - exfalso. destruct Hb as [Hb|Hb]; [|done]. destruct Hg' as [Hg'|Hg']; [congruence|done].
  - left. exists vals. split; [done|]. congruence.
  - right. exists ups. split; [done|]. congruence.
Qed.
Lemma texts_bound (Hlib : wf_lib G) (Hfiles : wf_files G H) s tag f t v p g u w t' x vals n acc v' b :
  wf_type t -> typed G t v -> open_field f -> place2 G s tag f t v p g u w -> mapping G H n s tag acc f t v = (v', MOk b) ->
  reach G u w t' x -> binds g t' -> given_texts s tag g vals ->
  exists w' a, value_at2 v' p = Some w' /\ leads G u w' t' a /\ bears G g t' x vals a.
Proof.
  intros Hw Ht Ho Hp E Hr Hb Hg.
  destruct (given_ok (wf_close G H Hfiles) _ _ _ _ _ _ _ _ _ _ _ _ _ _ _ Hp Ho E Hr Hb ltac:(left; by exists vals)) as (w' & a & n' & acc' & Hv & Hl & K).
  exists w', a. split; [done|]. split; [done|]. destruct (place_kept Hlib _ _ _ _ _ _ _ _ _ Hp Hw Ht) as [K1 K2].
  destruct (reach_kept Hlib _ _ _ _ Hr K1 K2) as [K3 K4]. destruct K as [(vals' & Hg' & K)|(ups & Hg' & _)]; [|by apply texts_not_files with (ups := ups) in Hg].
  rewrite (texts_unique2 _ _ _ _ _ Hg Hg'). apply by_texts_any in K as [_ K].
  apply by_texts_bears in K; [done|by apply wf_type_field|done].
Qed.
Lemma files_bound (Hlib : wf_lib G) (Hfiles : wf_files G H) s tag f t v p g u w t' x ups n acc v' b :
  wf_type t -> typed G t v -> open_field f -> place2 G s tag f t v p g u w -> mapping G H n s tag acc f t v = (v', MOk b) ->
  reach G u w t' x -> binds g t' -> given_files s tag g ups ->
  exists w' a, value_at2 v' p = Some w' /\ leads G u w' t' a /\ stores G t' ups a.
Proof.
  intros Hw Ht Ho Hp E Hr Hb Hg.
  destruct (given_ok (wf_close G H Hfiles) _ _ _ _ _ _ _ _ _ _ _ _ _ _ _ Hp Ho E Hr Hb ltac:(right; by exists ups)) as (w' & a & n' & acc' & Hv & Hl & K).
  exists w', a. split; [done|]. split; [done|]. destruct (place_kept Hlib _ _ _ _ _ _ _ _ _ Hp Hw Ht) as [K1 K2].
  destruct (reach_kept Hlib _ _ _ _ Hr K1 K2) as [K3 K4]. destruct K as [(vals' & Hg' & _)|(ups' & Hg' & K)]; [by apply texts_not_files with (ups := ups) in Hg'|].
  rewrite (files_unique _ _ _ _ _ Hg Hg'). apply done_ok in K as [_ K]. by apply files_ok in K.
Qed.

(** ** What is left alone *)
Lemma quiet (Hc : forall d, x_close H (x_open H d) = d) n s tag : forall acc f t v, open_field f -> ~ stirs G H s tag f t v ->
  fst (mapping G H n s tag acc f t v) = v.
Proof.
  induction n as [|n IH]; intros acc f t v Ho Hn; [done|].
  destruct (skipped_dec tag f) as [Hs|Hs]; [by rewrite mapping_skipped|].
  destruct (pointer_dec t) as [[e ->]|Hp].
  - destruct (ptr_shape v) as [[w ->]|[->|Hv]].
    + rewrite mapping_some by done. cbn [fst]. rewrite IH; [done|done|]. intros K. apply Hn. revert K. apply stirs_same, same_sym, same_some.
    + rewrite mapping_none by done. destruct (mapping _ _ _ _ _ _ _ _ _) as [w' [[]|]] eqn:Em; [|done..].
      exfalso. apply Hn. assert (stirs G H s tag f (resolve G e) (zero G (resolve G e))) as K by (by apply (set_stirs G H _ _ _ _ _ _ _ _ _ Ho Em)).
      revert K. apply stirs_same, same_sym, same_none.
    + by rewrite mapping_badptr.
  - rewrite mapping_core by done. pose proof (core_step G H (mapping G H n s tag) n s tag acc f t v Hs) as Hst.
    assert (reach G t v t v) as Hr by (by apply reach_here).
    destruct Hst as [fs vs Hg Ht Em|Ht Em|Hg Hns|vals Hns Hg|ups Hns Hg].
    + cbn [fst]. assert (fst (walk_fields (mapping G H n s tag) acc fs vs) = vs) as ->; [|by apply (with_members_same H Hc t v fs vs)].
      destruct (walk_fields _ _ _ _) as [vs' o] eqn:Ew. cbn [fst]. destruct (walk_any _ _ _ _ _ _ Ew) as (Hl & W).
      apply list_eq. intros i. destruct (vs !! i) as [w|] eqn:Hj; [|apply lookup_ge_None in Hj; apply lookup_ge_None; lia].
      destruct (fs !! i) as [[g u]|] eqn:Hi.
      * destruct (W i g u w Hi Hj) as (w' & Hw' & [->|[Hog ->]]); [done|]. rewrite Hw'. f_equal. apply IH; [done|].
        intros K. apply Hn. destruct (members_inside _ _ _ _ _ Em) as [(_ & -> & _)|Hin]; [by rewrite lookup_nil in Hi|].
        by apply (stirs_below _ _ _ _ f t v t v fs vs i g u w).
      * clear -Ew Hi Hj. revert vs vs' o i Ew Hi Hj. generalize (mapping G H n s tag) as rec. intros rec. induction fs as [|[g u] fs IHf]; intros vs vs' o i Ew Hi Hj.
        { injection Ew as <- _. done. }
        destruct vs as [|x vs]; [done|]. destruct i as [|i]; [done|]. cbn in Hi, Hj. cbn [walk_fields] in Ew. destruct (negb _ && negb _).
        -- destruct (walk_fields rec acc fs vs) as [vs2 o2] eqn:E2. injection Ew as <- _. cbn. by apply (IHf vs vs2 o2).
        -- destruct (rec _ g u x) as [x' [b|o1]].
           ++ destruct (walk_fields rec acc fs vs) as [vs2 o2] eqn:E2. injection Ew as <- _. cbn. by apply (IHf vs vs2 o2).
           ++ injection Ew as <- _. done.
    + done.
    + done.
    + exfalso. apply Hn. apply (stirs_here _ _ _ _ f t v t v); [done|by split|]. left. by exists vals.
    + exfalso. apply Hn. apply (stirs_here _ _ _ _ f t v t v); [done|by split|]. right. by exists ups.
Qed.
Lemma chain_any s tag f t v t' w : reach G t v t' w -> ~ skipped tag f -> forall n acc,
  fst (mapping G H n s tag acc f t v) = v \/
  exists n' acc', leads G t (fst (mapping G H n s tag acc f t v)) t' (fst (mapping G H (S n') s tag acc' f t' w)).
Proof.
  induction 1 as [t v Hn|e v t' v' Hr IH|e t' v' Hr IH]; intros Hs n acc; (destruct n as [|n]; [by left|]).
  - right. exists n, acc. by apply leads_here.
  - rewrite mapping_some by done. cbn [fst]. destruct (IH Hs n (mkAccess (a_hidden acc) true)) as [->|(n' & acc' & Hl)]; [by left|].
    right. exists n', acc'. by apply leads_ptr.
  - rewrite mapping_none by done. destruct (IH Hs n settable) as [E|(n' & acc' & Hl)].
    + destruct (mapping G H n s tag settable f (resolve G e) (zero G (resolve G e))) as [x [[]|]] eqn:Em; [|by left..].
      destruct (chain_ok G H _ _ _ _ _ _ _ Hr Hs _ _ _ _ Em) as (n' & acc' & y & E1 & E2).
      destruct (done (assign acc (VPtr None) (VPtr (Some x)))) as [r o] eqn:Ed. unfold assign in Ed.
      destruct (a_hidden acc); [injection Ed as <- _; by left|]. destruct (negb (a_addr acc)); injection Ed as <- _; [by left|].
      right. exists n', acc'. rewrite E1. apply leads_ptr. by apply E2.
    + destruct (mapping G H n s tag settable f (resolve G e) (zero G (resolve G e))) as [x [[]|]] eqn:Em; [|by left..].
      cbn [fst] in Hl. destruct (done (assign acc (VPtr None) (VPtr (Some x)))) as [r o] eqn:Ed. unfold assign in Ed.
      destruct (a_hidden acc); [injection Ed as <- _; by left|]. destruct (negb (a_addr acc)); injection Ed as <- _; [by left|].
      right. exists n', acc'. by apply leads_ptr.
Qed.
Lemma left_alone (Hc : forall d, x_close H (x_open H d) = d) s tag f t v p g u w :
  place2 G s tag f t v p g u w -> open_field f -> ~ stirs G H s tag g u w -> forall n acc,
  (value_at2 (fst (mapping G H n s tag acc f t v)) p = Some w \/ value_at2 (fst (mapping G H n s tag acc f t v)) p = None) /\
  (value_at2 v p <> None -> value_at2 (fst (mapping G H n s tag acc f t v)) p = Some w).
Proof.
  induction 1 as [f t v|f t v fs vs i g u w p h u' w' Hw Hr Hi Hj Hp IH]; intros Ho Hn n acc.
  - rewrite quiet by done. auto.
  - pose proof (place_value2 G s tag f t v (i :: p) h u' w') as Hv. specialize (Hv (place2_into _ _ _ _ _ _ _ _ _ _ _ _ _ _ _ _ Hw Hr Hi Hj Hp)).
    pose proof Hw as (_ & Hs & Hg).
    destruct (chain_any s tag f t v _ _ Hr Hs n acc) as [->|(n' & acc' & Hl)]; [split; [done|]; intros Hx; by destruct Hv|].
    assert (~ pointer (TStruct fs)) as Hnp by (intros [? ?]; congruence). rewrite mapping_core in Hl by done.
    pose proof (core_step G H (mapping G H n' s tag) n' s tag acc' f (TStruct fs) (VStruct vs) Hs) as Hst.
    assert (struct (TStruct fs)) as Hstr by (left; by eexists).
    destruct Hst as [fs0 vs0 Hg' Ht Em|Ht Em|Hg' Hns|vals Hns Hg'|ups Hns Hg'].
    + injection Em as <- <-. cbn [with_members fst] in Hl. apply leads_target in Hl.
      destruct (walk_fields _ _ _ _) as [vs' o] eqn:Ew. cbn [fst] in Hl. destruct (walk_any _ _ _ _ _ _ Ew) as (_ & W).
      destruct (W i g u w Hi Hj) as (y & Hy & Hcase).
      set (v' := fst (mapping G H n s tag acc f t v)) in *. clearbody v'.
      assert (value_at2 v' (i :: p) = value_at2 y p) as -> by (cbn; by rewrite Hl, Hy).
      assert (value_at2 v (i :: p) <> None -> value_at2 w p <> None) as Hne.
      { intros Hx Hnone. apply Hx. clear -Hr Hj Hnone. cbn. remember (TStruct fs) as t1 eqn:Et. remember (VStruct vs) as v1 eqn:Ev.
        induction Hr; subst; cbn; [by rewrite Hj|auto|done]. }
      destruct Hcase as [->|[Hog ->]].
      * destruct (place_value2 G _ _ _ _ _ _ _ _ _ Hp) as [E|E]; rewrite E; [auto|]. split; [by right|]. intros Hx. by apply Hne in Hx.
      * destruct (IH Hog Hn n' (sub_acc acc' g)) as [L1 L2]. auto.
    + done.
    + done.
    + exfalso. destruct Hns as [Hns|Hns]; [|done]. destruct Hg as [Hg|Hg]; [congruence|]. apply Hg. left. by exists vals.
    + exfalso. destruct Hns as [Hns|Hns]; [|done]. destruct Hg as [Hg|Hg]; [congruence|]. apply Hg. right. by exists ups.
Qed.
End Top.
