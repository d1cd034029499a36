(** Facts about the mapping of the Bind2 methods: calls of the binders. *)
From Coq Require Import ZArith NArith.
From Verif Require Import Base GoStr GoStrFacts Strconv UtilSpec StrconvFacts Header Binding BindingSpec BindingFacts BindingTop BindingMore Mapping MappingSpec MappingFacts MappingFiles MappingWalk MappingTop MappingAccept MappingEnds.

Section Calls.
Context {D : Type} (G : golib D) (H : filelib D).
Notation goval := (goval D).
Implicit Types s : setter D.
Implicit Types c : call2 D.

Lemma empty_open : open_field emptyField.
Proof. by left. Qed.
Lemma empty_not_skipped tag : ~ skipped tag emptyField.
Proof. intros K. apply skipped_eq in K. discriminate. Qed.
Lemma empty_not_given s tag : ~ given s tag emptyField.
Proof.
  intros [[vals K]|[ups K]]; [apply given_texts_eq in K as (_ & _ & K & _)|apply given_files_eq in K as (_ & K & _)]; by destruct K.
Qed.
Lemma empty_walked s tag : walked s tag emptyField.
Proof. split; [apply empty_open|]. split; [apply empty_not_skipped|right; apply empty_not_given]. Qed.
Lemma text_map_eq t : string_map t = true <-> text_map t.
Proof.
  unfold text_map. split; [destruct t as [| | | | | | | | | | | | | |[] b| | |]; try done; eauto|]. by intros [->|[->|[b ->]]].
Qed.
Lemma call_split n c e v s tag : reads2 c s tag -> ~ text_map (resolve G e) ->
  do_bind2 G H n c (Some (TPtr e, VPtr (Some v))) = and_validate G (map_obj G H n s tag (Some (TPtr e, VPtr (Some v)))).
Proof.
  intros Hr Hm. assert (string_map (resolve G e) = false) as Em by (destruct (string_map _) eqn:E; [by apply text_map_eq in E|done]).
  destruct Hr; unfold do_bind2, binder_Bind2, uri_Bind2, mapFormByTag; try rewrite Em; reflexivity.
Qed.
Lemma obj_split n s tag e v :
  map_obj G H (S n) s tag (Some (TPtr e, VPtr (Some v))) =
    (Some (TPtr e, VPtr (Some (fst (mapping G H n s tag settable emptyField (resolve G e) v)))), outcome (snd (mapping G H n s tag settable emptyField (resolve G e) v))).
Proof. unfold map_obj. rewrite mapping_some by apply empty_not_skipped. reflexivity. Qed.
Lemma validate_then r obj : r = (obj, BOk) -> then_validated G obj (and_validate G r).
Proof.
  intros ->. unfold and_validate, then_validated. cbn [fst snd]. split; [done|]. split; [by intros ->|]. split; [by intros e ->|by intros m ->].
Qed.
(** stopping is not success *)
Lemma done_stop (r : goval * bout) : snd (done r) <> MStop BOk.
Proof. by destruct r as [v []]. Qed.
Lemma texts_stop acc f t (v : goval) vals : snd (by_texts G acc f t v vals) <> MStop BOk.
Proof.
  destruct t; cbn [by_texts]; try apply done_stop. destruct (negb _); [done|]. destruct v; try done. destruct (setArray _ _ _ _ _ _). apply done_stop.
Qed.
Lemma walk_stop (rec : access -> field -> gotype -> goval -> goval * mout) acc fs : (forall acc f t v, snd (rec acc f t v) <> MStop BOk) ->
  forall vs, snd (walk_fields rec acc fs vs) <> MStop BOk.
Proof.
  intros Hrec. induction fs as [|[f t] fs IH]; intros [|v vs]; try done. cbn [walk_fields]. specialize (IH vs).
  destruct (negb _ && negb _); [by destruct (walk_fields rec acc fs vs)|].
  pose proof (Hrec (mkAccess (negb (f_exported f)) (a_addr acc)) f t v) as Hp. destruct (rec _ f t v) as [v' [b|o]]; [|done].
  by destruct (walk_fields rec acc fs vs) as [vs' [b'|o']].
Qed.
Lemma mapping_stop n s tag : forall acc f t v, snd (mapping G H n s tag acc f t v) <> MStop BOk.
Proof.
  induction n as [|n IH]; intros acc f t v; [done|]. destruct (skipped_dec tag f) as [Hs|Hs]; [by rewrite mapping_skipped|].
  destruct (pointer_dec t) as [[e ->]|Hp].
  - destruct (ptr_shape v) as [[w ->]|[->|Hv]].
    + rewrite mapping_some by done. apply IH.
    + rewrite mapping_none by done. pose proof (IH settable f (resolve G e) (zero G (resolve G e))) as K.
      destruct (mapping _ _ _ _ _ _ _ _ _) as [w' [[]|]]; try done. apply done_stop.
    + by rewrite mapping_badptr.
  - rewrite mapping_core by done. destruct (core_step G H (mapping G H n s tag) n s tag acc f t v Hs); [|done|done|apply texts_stop|apply done_stop].
    cbn [snd]. by apply walk_stop.
Qed.
(** a call on a pointer *)
Lemma call_cases n c e v s tag out o : reads2 c s tag -> ~ text_map (resolve G e) ->
  do_bind2 G H n c (Some (TPtr e, VPtr (Some v))) = (out, o) ->
  (n = 0 /\ out = Some (TPtr e, VPtr (Some v)) /\ o = BDiverge) \/
  exists n' v' m, n = S n' /\ mapping G H n' s tag settable emptyField (resolve G e) v = (v', m) /\ out = Some (TPtr e, VPtr (Some v')) /\
    match m with MOk _ => then_validated G out (out, o) | MStop o' => o = o' /\ o <> BOk end.
Proof.
  intros Hr Hm E. rewrite (call_split n c e v s tag Hr Hm) in E. destruct n as [|n]; [left; unfold map_obj in E; cbn in E; by injection E as <- <-|].
  right. rewrite obj_split in E. pose proof (mapping_stop n s tag settable emptyField (resolve G e) v) as Hst.
  destruct (mapping G H n s tag settable emptyField (resolve G e) v) as [v' m] eqn:Em. cbn [fst snd] in *.
  exists n, v', m. split; [done|]. split; [done|]. destruct m as [b|o']; cbn [outcome] in E.
  - pose proof (validate_then (Some (TPtr e, VPtr (Some v')), BOk) _ eq_refl) as K. rewrite E in K. pose proof K as [K1 _]. cbn in K1. by subst out.
  - destruct o'; cbn in E; try done; by injection E as <- <-.
Qed.
Lemma call_ok n c e v s tag out : reads2 c s tag -> ~ text_map (resolve G e) ->
  do_bind2 G H n c (Some (TPtr e, VPtr (Some v))) = (out, BOk) ->
  exists n' v' b, mapping G H n' s tag settable emptyField (resolve G e) v = (v', MOk b) /\ out = Some (TPtr e, VPtr (Some v')).
Proof.
  intros Hr Hm E. destruct (call_cases _ _ _ _ _ _ _ _ Hr Hm E) as [(_ & _ & ?)|(n' & v' & [b|o] & _ & Em & -> & K)]; [done|eauto|]. by destruct K.
Qed.

(** ** What is bound *)
Lemma bind2_texts n c s tag e v v' p g u w t' x vals :
  wf_lib G -> wf_files G H -> reads2 c s tag -> ~ text_map (resolve G e) -> wf_type (resolve G e) -> typed G (resolve G e) v ->
  held G s tag (resolve G e) v p g u w -> reach G u w t' x -> binds g t' -> given_texts s tag g vals ->
  do_bind2 G H n c (Some (TPtr e, VPtr (Some v))) = (Some (TPtr e, VPtr (Some v')), BOk) ->
  exists w' a, value_at2 v' p = Some w' /\ leads G u w' t' a /\ bears G g t' x vals a.
Proof.
  intros Hlib Hfiles Hr Hm Hw Ht Hp Hre Hb Hg E. destruct (call_ok _ _ _ _ _ _ _ Hr Hm E) as (n' & v1 & b & Em & Eo). injection Eo as <-.
  by apply (texts_bound G H Hlib Hfiles s tag emptyField (resolve G e) v p g u w t' x vals n' settable v' b); [| |apply empty_open| | | | |].
Qed.
Lemma bind2_files n c s tag e v v' p g u w t' x ups :
  wf_lib G -> wf_files G H -> reads2 c s tag -> ~ text_map (resolve G e) -> wf_type (resolve G e) -> typed G (resolve G e) v ->
  held G s tag (resolve G e) v p g u w -> reach G u w t' x -> binds g t' -> given_files s tag g ups ->
  do_bind2 G H n c (Some (TPtr e, VPtr (Some v))) = (Some (TPtr e, VPtr (Some v')), BOk) ->
  exists w' a, value_at2 v' p = Some w' /\ leads G u w' t' a /\ stores G t' ups a.
Proof.
  intros Hlib Hfiles Hr Hm Hw Ht Hp Hre Hb Hg E. destruct (call_ok _ _ _ _ _ _ _ Hr Hm E) as (n' & v1 & b & Em & Eo). injection Eo as <-.
  by apply (files_bound G H Hlib Hfiles s tag emptyField (resolve G e) v p g u w t' x ups n' settable v' b); [| |apply empty_open| | | | |].
Qed.
Lemma bears_unique f t (x : goval) vals a a' : wf_lib G -> wf_type t -> typed G t x -> bears G f t x vals a -> bears G f t x vals a' -> a = a'.
Proof.
  intros Hlib Hw Ht Ha Hb. apply by_texts_bears in Ha, Hb; [|by try apply wf_type_field..]. congruence.
Qed.
Lemma stores_unique t ups (a : goval) : stores G t ups a -> forall a', stores G t ups a' -> a = a'.
Proof.
  revert t ups a. fix IH 4. intros t ups a Hs. destruct Hs as [d ups|e d ups Er|e ups l Hf|n e ups l Hl Hf]; intros a' Hs'.
  - by inversion Hs'.
  - by inversion Hs'.
  - inversion Hs' as [| |? ? l' Hf'|]; subst. clear Hs'. do 2 f_equal. revert l' Hf'.
    induction Hf as [|d a ups l Hd Hf IHf]; intros l' Hf'; inversion Hf'; subst; [done|]. f_equal; [by apply (IH _ _ _ Hd)|by apply IHf].
  - inversion Hs' as [| | |? ? ? l' Hl' Hf']; subst. clear Hs'. f_equal. clear -Hf Hf' IH. revert l' Hf'.
    induction Hf as [|d a ups l Hd Hf IHf]; intros l' Hf'; inversion Hf'; subst; [done|]. f_equal; [by apply (IH _ _ _ Hd)|by apply IHf].
Qed.

(** ** What is left alone *)
Lemma bind2_left n c s tag e v out o p g u w :
  wf_files G H -> reads2 c s tag -> ~ text_map (resolve G e) ->
  held G s tag (resolve G e) v p g u w -> ~ stirs G H s tag g u w ->
  do_bind2 G H n c (Some (TPtr e, VPtr (Some v))) = (out, o) ->
  exists v', out = Some (TPtr e, VPtr (Some v')) /\ (value_at2 v' p = Some w \/ value_at2 v' p = None) /\ (value_at2 v p <> None -> value_at2 v' p = Some w).
Proof.
  intros Hfiles Hr Hm Hp Hn E. destruct (call_cases _ _ _ _ _ _ _ _ Hr Hm E) as [(_ & -> & _)|(n' & v' & m & _ & Em & -> & _)].
  - exists v. split; [done|]. destruct (place_value2 G _ _ _ _ _ _ _ _ _ Hp) as [K|K]; rewrite K; auto. split; [by right|done].
  - exists v'. split; [done|]. pose proof (left_alone G H (wf_close G H Hfiles) _ _ _ _ _ _ _ _ _ Hp empty_open Hn n' settable) as K. by rewrite Em in K.
Qed.
Lemma bind2_nothing n c s tag e v out o :
  wf_files G H -> reads2 c s tag -> ~ text_map (resolve G e) -> ~ stirs G H s tag emptyField (resolve G e) v ->
  do_bind2 G H n c (Some (TPtr e, VPtr (Some v))) = (out, o) -> out = Some (TPtr e, VPtr (Some v)).
Proof.
  intros Hfiles Hr Hm Hn E. destruct (bind2_left n c s tag e v out o [] emptyField (resolve G e) v Hfiles Hr Hm (place2_here _ _ _ _ _ _) Hn E) as (v' & -> & _ & K).
  cbn in K. assert (Some v' = Some v) as [= ->]; [by apply K|done].
Qed.
Lemma bind2_nil n c s tag e v v' p g e' :
  wf_files G H -> reads2 c s tag -> ~ text_map (resolve G e) ->
  held G s tag (resolve G e) v p g (TPtr e') (VPtr None) ->
  do_bind2 G H n c (Some (TPtr e, VPtr (Some v))) = (Some (TPtr e, VPtr (Some v')), BOk) ->
  (exists x, value_at2 v' p = Some (VPtr (Some x))) <-> stirs G H s tag g (TPtr e') (VPtr None).
Proof.
  intros Hfiles Hr Hm Hp E. destruct (call_ok _ _ _ _ _ _ _ Hr Hm E) as (n' & v1 & b & Em & Eo). injection Eo as <-.
  destruct (place_ok G H (wf_close G H Hfiles) _ _ _ _ _ _ _ _ _ Hp empty_open _ _ _ _ Em) as (w' & b' & K1 & K2 & K3).
  destruct b'.
  - destruct K3 as [[_ ?]|(Ho & n1 & acc1 & Eg)]; [done|]. destruct (K1 eq_refl) as [_ Hv].
    assert (stirs G H s tag g (TPtr e') (VPtr None)) as Hst by (by apply (set_stirs G H _ _ _ _ _ _ _ _ _ Ho Eg)).
    split; [done|]. intros _. rewrite Hv. destruct n1 as [|n1]; [done|].
    rewrite mapping_none in Eg by (by eapply stirs_not_skipped). destruct (mapping G H n1 s tag settable g (resolve G e') (zero G (resolve G e'))) as [x [[]|]]; [|discriminate..].
    apply done_ok in Eg as [_ Eg]. apply assign_ok in Eg as [-> _]. eauto.
  - destruct (K2 eq_refl) as (-> & K4 & _). split; [intros [x Hx]; rewrite Hx in K4; destruct K4; done|]. intros Hst. exfalso.
    destruct K3 as [[Hno _]|(Ho & n1 & acc1 & Eg)]; [by apply stirs_open in Hst|]. apply (set_stirs G H _ _ _ _ _ _ _ _ _ Ho Eg) in Hst. done.
Qed.

(** ** Which calls succeed *)
Lemma bind2_calm n c s tag e v out o :
  wf_lib G -> wf_files G H -> reads2 c s tag -> ~ text_map (resolve G e) -> wf_type (resolve G e) -> typed G (resolve G e) v ->
  all_settable G H s tag emptyField (resolve G e) v ->
  do_bind2 G H n c (Some (TPtr e, VPtr (Some v))) = (out, o) -> o <> BDiverge ->
  exists v', out = Some (TPtr e, VPtr (Some v')) /\
    (((forall p g u w, held G s tag (resolve G e) v p g u w -> suits G H s tag g u w) /\ then_validated G out (out, o)) \/
     (~ (forall p g u w, held G s tag (resolve G e) v p g u w -> suits G H s tag g u w) /\ exists err, o = BErr err)).
Proof.
  intros Hlib Hfiles Hr Hm Hw Ht Hset E Ho. destruct (call_cases _ _ _ _ _ _ _ _ Hr Hm E) as [(_ & _ & ->)|(n' & v' & m & _ & Em & -> & K)]; [done|].
  exists v'. split; [done|]. apply all_settable_eq in Hset as [_ Hbel].
  destruct (mapping_calm G H Hlib Hfiles n' s tag settable emptyField (resolve G e) v empty_open Hw Ht ltac:(split; [done|by left]) Hbel) as [C1 C2].
  - rewrite Em. cbn [snd]. intros ->. destruct K as [K _]. done.
  - rewrite Em in C1, C2. cbn [snd] in *. destruct m as [b|o'].
    + left. split; [|done]. apply C2. by eexists.
    + right. destruct K as [-> _]. split; [|exact C1]. intros K. apply C2 in K as [? ?]. done.
Qed.

(** ** Calls end *)
Lemma validate_ends t v : typed G t v -> validate G (Some (t, v)) <> Diverge.
Proof.
  intros Ht. pose proof (all_judged G _ t v (Nat.le_refl _) Ht) as K. unfold judged in K. unfold validate. cbn [ValidateStruct]. by destruct (ValidateStruct G t v) as [[]| |].
Qed.
Lemma bind2_ends e : well_founded_type G (resolve G e) -> exists n0, forall n c s tag v out o, n0 <= n -> reads2 c s tag -> ~ text_map (resolve G e) ->
  do_bind2 G H n c (Some (TPtr e, VPtr (Some v))) = (out, o) -> o = BDiverge -> validate G out = Diverge.
Proof.
  intros Hwf. destruct (mapping_ends G H _ Hwf) as [n0 Hn0]. exists (S n0). intros n c s tag v out o Hn Hr Hm E ->.
  destruct (call_cases _ _ _ _ _ _ _ _ Hr Hm E) as [(-> & _)|(n' & v' & m & -> & Em & -> & K)]; [lia|].
  pose proof (Hn0 n' ltac:(lia) s tag settable emptyField v) as He. rewrite Em in He. destruct m as [b|o']; [|by destruct K as [<- _]].
  destruct K as (_ & K1 & K2 & K3). cbn [snd] in *. destruct (validate G (Some (TPtr e, VPtr (Some v')))) as [[err|]|msg|]; [by specialize (K2 err eq_refl)|by specialize (K1 eq_refl)|by specialize (K3 msg eq_refl)|done].
Qed.
Lemma bind2_self n c s tag e v out fs i vs : reads2 c s tag -> resolve G e = TStruct fs -> self_containing G s tag fs i -> v = VStruct vs -> vs !! i = Some (VPtr None) ->
  do_bind2 G H n c (Some (TPtr e, VPtr (Some v))) <> (out, BOk).
Proof.
  intros Hr He Hs -> Hv E. destruct (call_ok n c e (VStruct vs) s tag out Hr) as (n' & v' & b & Em & _); [rewrite He; by intros [?|[?|[? ?]]]|done|].
  rewrite He in Em. by apply (self_never G H s tag fs i emptyField Hs (empty_walked s tag)) in Em.
Qed.

(** ** Maps *)
Lemma call_map n c form t t0 v m m' v' o : fills2 c form -> map_in G t v v' t0 m m' -> text_map t0 ->
  setFormMap (map_to_list form) t0 m = (m', o) ->
  do_bind2 G H n c (Some (t, v)) = and_validate G (Some (t, v'), o).
Proof.
  intros Hf Ht Hm E. apply text_map_eq in Hm. destruct Ht as [(-> & -> & ->)|(e & -> & He & -> & ->)].
  - destruct Hf; unfold do_bind2, binder_Bind2, uri_Bind2, mapFormByTag; destruct t0 as [| | | | | | | | | | | | | | | | |]; try done; cbn [string_map] in Hm |- *; try rewrite Hm; rewrite E; reflexivity.
  - subst t0. destruct Hf; unfold do_bind2, binder_Bind2, uri_Bind2, mapFormByTag; rewrite Hm, E; reflexivity.
Qed.
Lemma map_to_list_order (form : gmap gostr (list gostr)) : NoDup (map_to_list form).*1 /\ list_to_map (map_to_list form) = form.
Proof. split; [apply NoDup_fst_map_to_list|apply list_to_map_to_list]. Qed.
Lemma call_map_all n c form t v v' m : fills2 c form -> map_in G t v v' TMapL (VMapL (Some m)) (VMapL (Some (form ∪ m))) ->
  do_bind2 G H n c (Some (t, v)) = (Some (t, v'), BOk).
Proof.
  intros Hf Ht. rewrite (call_map n c form t TMapL v (VMapL (Some m)) (VMapL (Some (form ∪ m))) v' BOk Hf Ht).
  - cbn [and_validate]. assert (validate G (Some (t, v')) = Ok None) as ->; [|done].
    destruct Ht as [(-> & _ & ->)|(e & -> & He & _ & ->)]; unfold validate; reflexivity.
  - right. by left.
  - cbn [setFormMap]. destruct (map_to_list_order form) as [Hn Hl].
    assert (copy_all (map_to_list form) m = form ∪ m) as ->; [|done]. apply map_eq. intros k. rewrite copy_all_lookup by done. rewrite Hl, lookup_union. destruct (form !! k), (m !! k); done.
Qed.
Lemma call_map_last n c form t v m : fills2 c form -> (forall k, form !! k <> Some []) -> 
  (forall m', exists v', map_in G t v v' TMapS (VMapS (Some m)) (VMapS (Some m'))) ->
  exists m' v', map_in G t v v' TMapS (VMapS (Some m)) (VMapS (Some m')) /\ do_bind2 G H n c (Some (t, v)) = (Some (t, v'), BOk) /\
  forall k, (forall l x, form !! k = Some (l ++ [x]) -> m' !! k = Some x) /\ (form !! k = None -> m' !! k = m !! k).
Proof.
  intros Hf Hfull Ht. destruct (map_to_list_order form) as [Hn Hl].
  destruct (copy_last_lookup (map_to_list form)) with (m := m) as (m' & E & Hl').
  - rewrite Forall_forall. intros [k x] Hin Ex. cbn in Ex. subst x. apply (Hfull k). by apply elem_of_map_to_list.
  - done.
  - destruct (Ht m') as [v' Hv']. exists m', v'. split; [done|]. split.
    + rewrite (call_map n c form t TMapS v (VMapS (Some m)) (VMapS (Some m')) v' BOk Hf Hv').
      * cbn [and_validate]. assert (validate G (Some (t, v')) = Ok None) as ->; [|done].
        destruct Hv' as [(-> & _ & ->)|(e & -> & He & _ & ->)]; unfold validate; reflexivity.
      * by left.
      * cbn [setFormMap]. by rewrite E.
    + intros k. rewrite Hl', Hl. split; [intros l x ->; apply last_snoc|by intros ->].
Qed.
Lemma nil_map n c form t v : fills2 c form -> form <> ∅ -> map_in G t v v TMapS (VMapS None) (VMapS None) \/ map_in G t v v TMapL (VMapL None) (VMapL None) ->
  exists msg, do_bind2 G H n c (Some (t, v)) = (Some (t, v), BPanic msg).
Proof.
  intros Hf Hne Ht. destruct (map_to_list form) as [|[k vs] order] eqn:E; [by apply map_to_list_empty_iff in E|].
  destruct Ht as [Ht|Ht].
  - destruct (setFormMap (D := D) (map_to_list form) TMapS (VMapS None)) as [m' o] eqn:Es. rewrite E in Es. cbn [setFormMap] in Es.
    assert (m' = VMapS None /\ exists msg, o = BPanic msg) as [-> [msg ->]] by (destruct vs; injection Es as <- <-; eauto).
    exists msg. rewrite (call_map n c form t TMapS v (VMapS None) (VMapS None) v (BPanic msg) Hf Ht); [done|by left|]. by rewrite E.
  - exists (L "assignment to entry in nil map"). rewrite (call_map n c form t TMapL v (VMapL None) (VMapL None) v (BPanic (L "assignment to entry in nil map")) Hf Ht); [done|right; by left|].
    by rewrite E.
Qed.

(** ** Targets that cannot be filled *)
Lemma nil_panics n c form e : fills2 c form -> exists msg, do_bind2 G H n c (Some (TPtr e, VPtr None)) = (Some (TPtr e, VPtr None), BPanic msg).
Proof. intros Hf. eexists. destruct Hf; unfold do_bind2, binder_Bind2, uri_Bind2, mapFormByTag; reflexivity. Qed.
Lemma by_value_split n c s tag t v : reads2 c s tag -> ~ text_map t -> ~ pointer t ->
  do_bind2 G H n c (Some (t, v)) = and_validate G (map_obj G H n s tag (Some (t, v))).
Proof.
  intros Hr Hm Hp. assert (string_map t = false) as Em by (destruct (string_map _) eqn:E; [by apply text_map_eq in E|done]).
  destruct Hr; unfold do_bind2, binder_Bind2, uri_Bind2, mapFormByTag; try reflexivity; (destruct t; try (destruct Hp; eexists; reflexivity)); rewrite ?Em; reflexivity.
Qed.

(** ** Bind and Bind2 *)
Lemma texts_given form tag f vals : tag <> L "header" -> texts form tag f vals -> given_texts (D := D) (SForm form) tag f vals.
Proof.
  intros Htag (key & d & (text & name & opts & H1 & H2 & H3 & H4 & H5 & ->) & Hv). rewrite bool_decide_false in Hv by done.
  split; [intros ups (? & ? & ? & ? & _ & K & _); done|]. exists name, d. split; [|done].
  exists text, name, opts. split; [by left|]. split.
  { intros ->. destruct H2 as [E Hc]. rewrite Forall_cons in Hc. destruct Hc as [Hc _]. destruct opts as [|o opts]; [cbn in E; by rewrite <- E in H4|].
    change (["-"%char] = name ++ ","%char :: commas (o :: opts)) in E. destruct name as [|a name]; [done|]. injection E as Ea E. by destruct name. }
  auto 10.
Qed.
Lemma carries_reads f t (b : goval) x a : plain t -> t <> TDuration -> carries G t b x a -> reads_as G f t b x a.
Proof. intros Hp Hd Hc. destruct Hc; try done; by constructor. Qed.
Lemma reads_unique f t (b : goval) x a a' : wf_elem t -> reads_as G f t b x a -> reads_as G f t b x a' -> a = a'.
Proof. intros Hw Ha Hb. apply proper_reads in Ha, Hb; [|done..]. congruence. Qed.
Lemma bind_both n n1 c form order tag e fs v v1 v2 p fl f u w vals :
  wf_lib G -> wf_files G H -> reads2 c (SForm form) tag -> tag <> L "header" ->
  resolve G e = TStruct fs -> wf_type (TStruct fs) -> typed G (TStruct fs) v ->
  place G (TStruct fs) v p fl f u w -> Forall (fun g => ~ selected (D := D) form ∅ tag g) fl ->
  held G (SForm form) tag (TStruct fs) v p f u w ->
  f_exported f = true -> leaf G f u w -> texts form tag f vals ->
  plain_field G u -> u <> TDuration -> (forall e', u = TPtr e' -> resolve G e' <> TDuration) ->
  ~ too_big G u (hd [] vals) -> ~ clears G u w (hd [] vals) ->
  MapForm G n1 (Some (TPtr e, VPtr (Some v))) form order ∅ tag = (Some (TPtr e, VPtr (Some v1)), BOk) ->
  do_bind2 G H n c (Some (TPtr e, VPtr (Some v))) = (Some (TPtr e, VPtr (Some v2)), BOk) ->
  exists a, value_at v1 p = Some a /\ value_at2 v2 p = Some a.
Proof.
  intros Hlib Hfiles Hr Htag He Hw Ht Hp Hfl Hh Hx Hleaf Htx Hpl Hd1 Hd2 Hbig Hcl E1 E2.
  destruct (written G _ _ _ _ _ _ _ _ _ _ _ _ _ _ vals Hlib He Hw Ht Hp Hfl Hx Hleaf Htx E1) as [K _].
  destruct (K Hpl) as (x & rest & w' & -> & Hv & K'). cbn [hd] in *. destruct K' as [Hc|[?|[? _]]]; [|done|done].
  pose proof (texts_given _ _ _ _ Htag Htx) as Hg. rewrite <- He in Hh, Hw, Ht. exists w'. split; [done|].
  assert (~ text_map (resolve G e)) as Hnm by (rewrite He; by intros [?|[?|[? ?]]]).
  destruct (place_kept G Hlib _ _ _ _ _ _ _ _ _ Hh Hw Ht) as [Hwu Htu].
  assert (f_anon f = false) as Han by (by destruct Hleaf).
  assert (forall t, plain t -> ~ pointer t) as Hnp by (intros t Hpt [? ->]; done).
  assert (forall t, plain t -> forall b vals a, bears G f t b vals a -> reads_as G f t b (hd [] vals) a) as Hone by (intros t Hpt b vals a Hb; destruct Hb; done).
  destruct Hpl as [Hpl|(e' & -> & Hpl)].
  - destruct (bind2_texts n c (SForm form) tag e v v2 p f u w u w (x :: rest)) as (w2 & a & Hv2 & Hl & Hb); try done; [by apply reach_here, Hnp|split; [by left|by left]|].
    assert (a = w2) as -> by (inversion Hl; subst; done). rewrite Hv2. f_equal. symmetry.
    eapply (reads_unique f u); [by apply wf_type_elem|by apply carries_reads|]. by apply (Hone u Hpl) in Hb.
  - assert (wf_type (resolve G e')) as Hwe by (by apply wf_resolve).
    assert (exists b a0, reach G (TPtr e') w (resolve G e') b /\ w' = VPtr (Some a0) /\ carries G (resolve G e') b x a0) as (b & a0 & Hre & -> & Hc').
    { inversion Hc as [| | | | | |? ? a0 Hc'|? b ? a0 Hc']; subst.
      - exists (zero G (resolve G e')), a0. split; [|done]. by apply reach_nil, reach_here, Hnp.
      - exists b, a0. split; [|done]. by apply reach_ptr, reach_here, Hnp. }
    destruct (bind2_texts n c (SForm form) tag e v v2 p f (TPtr e') w (resolve G e') b (x :: rest)) as (w2 & a & Hv2 & Hl & Hb); try done; [split; [by left|by left]|].
    assert (w2 = VPtr (Some a)) as ->. { inversion Hl as [? ? K1|? ? ? ? K1]; subst; [destruct K1; by eexists|]. inversion K1; subst; [done|]. exfalso. apply (Hnp (resolve G e')); [done|]. by eexists. }
    rewrite Hv2. do 3 f_equal. symmetry. eapply (reads_unique f (resolve G e')); [by apply wf_type_elem|apply carries_reads; [done|by apply Hd2|done]|]. by apply (Hone _ Hpl) in Hb.
Qed.
End Calls.
