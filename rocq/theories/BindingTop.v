(** Binding as seen by a caller of MapForm and of ctx.Bind. *)
From Coq Require Import ZArith NArith.
From Verif Require Import Base GoStr Strconv Header StrconvFacts UtilFacts Pattern Tree Router Ctx Util Binding BindCtx UtilSpec
  BindingSpec BindingFacts BindingMore BodySpec.

Section Top.
Context {D : Type} (G : golib D).
Notation goval := (goval D).
Notation gobj := (option (gotype * goval)).

Lemma MapForm_struct fuel e fs v form order files tag : resolve G e = TStruct fs ->
  MapForm G fuel (Some (TPtr e, VPtr (Some v))) form order files tag =
  (Some (TPtr e, VPtr (Some (fst (_mapForm G fuel form files tag (TStruct fs) v)))), snd (_mapForm G fuel form files tag (TStruct fs) v)).
Proof. intros E. unfold MapForm. rewrite E. cbn [kind_struct]. by destruct (_mapForm _ _ _ _ _ _ _). Qed.

(** the common part: a leaf of the target after a successful call *)
Lemma leaf_result fuel e fs v v' form order files tag p fl f u w :
  wf_lib G -> resolve G e = TStruct fs -> wf_type (TStruct fs) -> typed G (TStruct fs) v ->
  place G (TStruct fs) v p fl f u w -> Forall (fun g => ~ selected form files tag g) fl ->
  f_exported f = true -> leaf G f u w ->
  MapForm G fuel (Some (TPtr e, VPtr (Some v))) form order files tag = (Some (TPtr e, VPtr (Some v')), BOk) ->
  typed G u w /\ wf_type u /\
  exists w', value_at v' p = Some w' /\ tryToSetValue2 G f u false w form files tag = (w', BOk).
Proof.
  intros Hlib Er Hw Ht Hp Hfl Hx Hleaf E. rewrite (MapForm_struct _ _ fs) in E by done. injection E as E1 E2.
  destruct (place_ok G Hlib form files tag _ _ _ _ _ _ _ Hp Hw Ht Hfl fuel v') as (H1 & H2 & fuel' & w' & H3 & H4).
  { rewrite <- E1, <- E2. by destruct (_mapForm _ _ _ _ _ _ _). }
  split_and!; [done|done|]. exists w'. split; [done|]. by rewrite step_leaf in H4.
Qed.

Lemma written fuel e fs v v' form order files tag p fl f u w vals :
  wf_lib G -> resolve G e = TStruct fs -> wf_type (TStruct fs) -> typed G (TStruct fs) v ->
  place G (TStruct fs) v p fl f u w -> Forall (fun g => ~ selected form files tag g) fl ->
  f_exported f = true -> leaf G f u w -> texts form tag f vals ->
  MapForm G fuel (Some (TPtr e, VPtr (Some v))) form order files tag = (Some (TPtr e, VPtr (Some v')), BOk) ->
  (plain_field G u -> exists s rest w', vals = s :: rest /\ value_at v' p = Some w' /\
     (carries G u w s w' \/ too_big G u s \/ (clears G u w s /\ w' = w))) /\
  (forall e', u = TSlice e' -> plain_field G (resolve G e') -> exists l, vals <> [] /\ value_at v' p = Some (VSlice (Some l)) /\
     Forall2 (fun s w' => carries G (resolve G e') (zero G (resolve G e')) s w' \/ too_big G (resolve G e') s) vals l).
Proof.
  intros Hlib Er Hw Ht Hp Hfl Hx Hleaf Htx E.
  destruct (leaf_result _ _ _ _ _ _ _ _ _ _ _ _ _ _ Hlib Er Hw Ht Hp Hfl Hx Hleaf E) as (Htu & Hwu & w' & Hv & Hset).
  destruct (try_texts G form files tag f u false w vals Htx) as (key & opt & _ & Et). rewrite Et in Hset. clear Et. split.
  - intros Hpl. destruct vals as [|s rest]; [by destruct u|].
    exists s, rest, w'. split_and!; [done|done|].
    assert (setWithProperType2 G opt u false s w key = (w', BOk)) as Hs.
    { destruct u; try done. destruct Hpl as [[]|(e0 & ? & _)]; done. }
    by apply (proper_ok G Hlib opt u s w key w').
  - intros e' -> Hpl. destruct vals as [|s rest]; [done|].
    destruct (set_elems _ _ _ _ _) as [l o] eqn:El. destruct o; try done. cbn [put] in Hset. injection Hset as <-.
    exists l. split_and!; [done|done|]. apply elems_ok in El. eapply Forall2_impl; [exact El|].
    cbn. intros s0 w0 Hs. assert (Hwe : wf_type (resolve G e')) by (by apply wf_resolve_slice).
    destruct (proper_ok G Hlib opt (resolve G e') s0 (zero G (resolve G e')) key w0 Hpl Hwe) as [H|[H|[H _]]]; auto.
    + by apply zero_typed.
    + exfalso. destruct (resolve G e'); cbn [zero] in H; inversion H.
Qed.

Lemma untouched fuel e fs v v' o form order files tag p fl f u w :
  wf_lib G -> resolve G e = TStruct fs -> wf_type (TStruct fs) -> typed G (TStruct fs) v ->
  place G (TStruct fs) v p fl f u w -> Forall (fun g => ~ selected form files tag g) fl ->
  (f_exported f = true /\ leaf G f u w /\ ~ selected form files tag f) \/ ~ open_field f ->
  MapForm G fuel (Some (TPtr e, VPtr (Some v))) form order files tag = (Some (TPtr e, VPtr (Some v')), o) ->
  (value_at v' p = Some w \/ value_at v' p = None) /\ (o = BOk -> value_at v' p = Some w).
Proof.
  intros Hlib Er Hw Ht Hp Hfl Hf E. rewrite (MapForm_struct _ _ fs) in E by done. injection E as E1 E2.
  assert (forall rec, field_step G rec form files tag f u w = (w, BOk)) as Hstep.
  { intros rec. destruct Hf as [(Hx & Hleaf & Hs)|Hc]; [|by apply step_closed]. rewrite step_leaf by done. by apply try_unselected. }
  split.
  - destruct (value_at v' p) as [w'|] eqn:Ev; [|by right]. left. rewrite <- E1 in Ev.
    destruct (place_any G Hlib form files tag _ _ _ _ _ _ _ Hp Hw Ht Hfl fuel w' Ev) as [->|[fuel' ->]]; [done|].
    by rewrite Hstep.
  - intros ->. destruct (place_ok G Hlib form files tag _ _ _ _ _ _ _ Hp Hw Ht Hfl fuel v') as (_ & _ & fuel' & w' & H3 & H4).
    { rewrite <- E1, <- E2. by destruct (_mapForm _ _ _ _ _ _ _). }
    rewrite Hstep in H4. by injection H4 as ->.
Qed.

Lemma uploaded fuel e fs v v' form order files tag p fl f u w ups :
  wf_lib G -> resolve G e = TStruct fs -> wf_type (TStruct fs) -> typed G (TStruct fs) v ->
  place G (TStruct fs) v p fl f u w -> Forall (fun g => ~ selected form files tag g) fl ->
  f_exported f = true -> leaf G f u w -> uploads form files tag f ups ->
  MapForm G fuel (Some (TPtr e, VPtr (Some v))) form order files tag = (Some (TPtr e, VPtr (Some v')), BOk) ->
  (exists e1 d rest, u = TPtr e1 /\ resolve G e1 = TFile /\ ups = d :: rest /\ value_at v' p = Some (VPtr (Some (VOpaque d)))) \/
  (exists e1 e2, u = TSlice e1 /\ e1 = TPtr e2 /\ resolve G e2 = TFile /\ ups <> [] /\
     value_at v' p = Some (VSlice (Some (map (fun d => VPtr (Some (VOpaque d))) ups)))).
Proof.
  intros Hlib Er Hw Ht Hp Hfl Hx Hleaf Hup E.
  destruct (leaf_result _ _ _ _ _ _ _ _ _ _ _ _ _ _ Hlib Er Hw Ht Hp Hfl Hx Hleaf E) as (Htu & Hwu & w' & Hv & Hset).
  destruct (try_cases G form files tag f u false w) as [[H _]|[(vals & key & opt & H & _)|(fs' & key & Hup' & _ & Et)]].
  - exfalso. apply H. right. by exists ups.
  - exfalso. destruct Hup as (k & Hk & Hf & Hfi), H as (k' & d & Hk' & Hd). destruct (tagged_unique _ _ _ _ _ _ Hk Hk') as [<- <-].
    destruct Hd as [Hd|(_ & Hd & _)]; [congruence|done].
  - assert (fs' = ups) as ->.
    { destruct Hup as (k & Hk & _ & H1), Hup' as (k' & Hk' & _ & H2). destruct (tagged_unique _ _ _ _ _ _ Hk Hk') as [<- _]. congruence. }
    rewrite Et in Hset. clear Et. destruct u as [| | | | | | | | |e1|e1| | | | | | |]; try (destruct ups; done).
    + left. cbn [file_ptr] in Hset. destruct (resolve G e1) eqn:E1; try (destruct ups; done).
      destruct ups as [|d rest]; [done|]. cbn [put] in Hset. injection Hset as <-. exists e1, d, rest. done.
    + right. destruct ups as [|d rest]; [done|]. destruct (file_ptr G e1) eqn:E1; [|done]. cbn [put] in Hset. injection Hset as <-.
      destruct e1 as [| | | | | | | | |e2| | | | | | | |]; try done. exists (TPtr e2), e2. split_and!; try done.
      cbn [file_ptr] in E1. by destruct (resolve G e2).
Qed.

(** ** Times *)
Lemma step_time rec form (files : gmap gostr (list D)) tag f e : f_exported f = true -> f_anon f = false -> resolve G e = TTime ->
  field_step G rec form files tag f (TPtr e) (VPtr None) =
  (let '(w, o) := tryToSetValue2 G f TTime false (zero G TTime) form files tag in (VPtr (Some w), o)).
Proof.
  intros Hx Ha Er. unfold field_step. rewrite Hx, Ha. cbn [negb andb orb file_ptr kind_struct]. cbv zeta. rewrite Er.
  cbn [negb andb orb file_ptr kind_struct]. done.
Qed.
Lemma scalar_time f tag s v key d : set_scalar G (snd (parseFormName f tag)) TTime false s v key = (d, BOk) <->
  exists x, d = VOpaque x /\ instant G f s x.
Proof.
  cbn [set_scalar]. pose proof (time_ok G f tag s) as H. destruct (time_value G s _) as [x|e].
  - split; [intros [= <-]; exists x; split; [done|by apply H]|]. intros (y & -> & Hy). apply H in Hy. congruence.
  - split; [discriminate|]. intros (y & -> & Hy). apply H in Hy. congruence.
Qed.
Lemma proper_time f tag t s v key d : time_field G t -> typed G t v ->
  setWithProperType2 G (snd (parseFormName f tag)) t false s v key = (d, BOk) <-> shows G f t s d.
Proof.
  intros Htf Ht. destruct Htf as [->|(e & -> & Er)].
  - cbn [setWithProperType2]. rewrite scalar_time. split; [intros (x & -> & H); by constructor|]. intros H. inversion H; subst. eauto.
  - assert (forall w, (let '(w, o) := set_scalar G (snd (parseFormName f tag)) TTime false s w key in (VPtr (Some w), o)) = (d, BOk) <-> shows G f (TPtr e) s d) as Hw.
    { intros w. pose proof (scalar_time f tag s w key) as H. destruct (set_scalar _ _ _ _ _ _ _) as [w' o]. split.
      - intros [= <- ->]. destruct (proj1 (H w') eq_refl) as (x & -> & Hx). by constructor.
      - intros Hs. inversion Hs as [|? ? x Er' Hx]; subst.
        assert ((w', o) = (VOpaque x, BOk)) as E by (apply H; eauto). by injection E as -> ->. }
    cbn [setWithProperType2]. rewrite Er. inversion Ht as [| | | | |? ? Hx| |? |? ? Ht'| | | | | | |]; subst; [done|apply Hw|apply Hw].
Qed.
Lemma time_typed_nil : typed G TTime (zero G TTime).
Proof. by constructor. Qed.
Lemma try_time form (files : gmap gostr (list D)) tag f t v vals d : time_field G t -> typed G t v -> texts form tag f vals ->
  tryToSetValue2 G f t false v form files tag = (d, BOk) <-> exists s rest, vals = s :: rest /\ shows G f t s d.
Proof.
  intros Htf Ht Htx. destruct (try_texts G form files tag f t false v vals Htx) as (key & opt & Eo & ->).
  assert (opt = snd (parseFormName f tag)) as -> by (by rewrite Eo).
  assert (match vals with s :: _ => setWithProperType2 G (snd (parseFormName f tag)) t false s v key | [] => (v, BPanic (L "index out of range")) end = (d, BOk) <->
    exists s rest, vals = s :: rest /\ shows G f t s d) as H.
  { destruct vals as [|s rest]; [split; [discriminate|by intros (? & ? & ? & _)]|]. rewrite proper_time by done.
    split; [eauto|]. by intros (? & ? & [= <- <-] & ?). }
  destruct Htf as [->|(e & -> & _)]; exact H.
Qed.
Lemma try_times (Hlib : wf_lib G) form (files : gmap gostr (list D)) tag f e v vals d : time_field G (resolve G e) -> wf_type (TSlice e) -> texts form tag f vals ->
  tryToSetValue2 G f (TSlice e) false v form files tag = (d, BOk) <->
  exists l, vals <> [] /\ d = VSlice (Some l) /\ Forall2 (shows G f (resolve G e)) vals l.
Proof.
  intros Htf Hw Htx. destruct (try_texts G form files tag f (TSlice e) false v vals Htx) as (key & opt & Eo & ->).
  assert (opt = snd (parseFormName f tag)) as -> by (by rewrite Eo).
  assert (typed G (resolve G e) (zero G (resolve G e))) as Hz by (by apply zero_typed, wf_resolve_slice).
  assert (forall l, set_elems G (snd (parseFormName f tag)) (resolve G e) vals key = (l, BOk) <-> Forall2 (shows G f (resolve G e)) vals l) as Hel.
  { clear Htx. induction vals as [|s vals IH]; intros l; cbn [set_elems].
    - split; [intros [= <-]; constructor|]. intros H. by inversion H.
    - pose proof (proper_time f tag (resolve G e) s (zero G (resolve G e)) key) as Hs.
      destruct (setWithProperType2 _ _ _ _ _ _ _) as [w o]. destruct (set_elems _ _ _ _ _) as [l' o']. split.
      + intros E. destruct o; try discriminate. injection E as <- ->. constructor; [by apply Hs|by apply IH].
      + intros H. inversion H as [|? w0 ? l0 H1 H2]; subst. apply Hs in H1; [|done|done]. apply IH in H2. injection H1 as -> ->. by injection H2 as -> ->. }
  destruct vals as [|s rest]; [split; [discriminate|by intros (? & ? & _)]|].
  destruct (set_elems _ _ _ _ _) as [l o]. cbn [put]. split.
  - intros E. destruct o; try discriminate. injection E as <-. exists l. split_and!; [done|done|by apply Hel].
  - intros (l' & _ & -> & H). apply Hel in H. by injection H as -> ->.
Qed.
Lemma timed fuel e fs v v' form order files tag p fl f u w vals :
  wf_lib G -> resolve G e = TStruct fs -> wf_type (TStruct fs) -> typed G (TStruct fs) v ->
  place G (TStruct fs) v p fl f u w -> Forall (fun g => ~ selected form files tag g) fl ->
  f_exported f = true -> f_anon f = false -> texts form tag f vals ->
  MapForm G fuel (Some (TPtr e, VPtr (Some v))) form order files tag = (Some (TPtr e, VPtr (Some v')), BOk) ->
  (time_field G u -> exists s rest w', vals = s :: rest /\ value_at v' p = Some w' /\ shows G f u s w') /\
  (forall e', u = TSlice e' -> time_field G (resolve G e') -> exists l, vals <> [] /\ value_at v' p = Some (VSlice (Some l)) /\
     Forall2 (shows G f (resolve G e')) vals l).
Proof.
  intros Hlib Er Hw Ht Hp Hfl Hx Ha Htx E. rewrite (MapForm_struct _ _ fs) in E by done. injection E as E1 E2.
  destruct (place_ok G Hlib form files tag _ _ _ _ _ _ _ Hp Hw Ht Hfl fuel v') as (H1 & H2 & fuel' & w' & H3 & H4).
  { rewrite <- E1, <- E2. by destruct (_mapForm _ _ _ _ _ _ _). }
  split.
  - intros Htf. assert (leaf G f u w \/ exists e', u = TPtr e' /\ resolve G e' = TTime /\ w = VPtr None) as [Hl|(e' & -> & Ee & ->)].
    { destruct Htf as [->|(e' & -> & Ee)]; [left; split_and!; done|]. inversion H1 as [| | | | |? ? Hx'| |? |? w0 Hw0| | | | | | |]; subst; [done|right; eauto|left; split_and!; done]. }
    + rewrite step_leaf in H4 by done. apply (try_time _ _ _ _ _ _ vals) in H4 as (s & rest & -> & Hs); [|done..]. eauto 10.
    + rewrite step_time in H4 by done. destruct (tryToSetValue2 _ _ _ _ _ _ _ _) as [w0 o] eqn:Et. injection H4 as <- ->.
      apply (try_time _ _ _ _ _ _ vals) in Et as (s & rest & -> & Hs); [|by left|apply time_typed_nil|done].
      exists s, rest, (VPtr (Some w0)). split_and!; [done|done|]. inversion Hs; subst. by constructor.
  - intros e' -> Htf. assert (leaf G f (TSlice e') w) as Hl by (split_and!; done).
    rewrite step_leaf in H4 by done. apply (try_times Hlib _ _ _ _ _ _ vals) in H4 as (l & Hne & -> & Hs); [|done..]. eauto.
Qed.

(** ** Acceptance *)
Lemma scalar_accepts opt t s v name a : plain t -> wf_type t -> typed G t v -> carries G t v s a ->
  exists a', set_scalar G opt t false s v name = (a', BOk).
Proof.
  intros Hp Hw Ht H. destruct H as [w b s z Hn Hf|b s z Hn Hf|w b s z Hn Hf|b s x Hx|b s|w b s x Hx|e s a H|e b s a H]; try done; cbn [set_scalar put].
  - assert (fits_int 64 z) as H64.
    { unfold fits_int in *. cbn [wf_type] in Hw. assert (2 ^ (Z.of_N w - 1) <= 2 ^ (Z.of_N 64 - 1))%Z as Hle.
      { apply Z.pow_le_mono_r; [lia|]. rewrite !elem_of_cons in Hw. destruct Hw as [->|[->|[->|[->|Hw]]]]; [lia..|by apply elem_of_nil in Hw]. }
      lia. }
    rewrite (proj2 (number_parse s z)) by done. eauto.
  - rewrite (proj2 (number_parse s z)) by done. eauto.
  - assert (fits_uint 64 z) as H64.
    { unfold fits_uint in *. cbn [wf_type] in Hw. assert (2 ^ Z.of_N w <= 2 ^ Z.of_N 64)%Z as Hle.
      { apply Z.pow_le_mono_r; [lia|]. rewrite !elem_of_cons in Hw. destruct Hw as [->|[->|[->|[->|Hw]]]]; [lia..|by apply elem_of_nil in Hw]. }
      lia. }
    assert (exists n, z = Z.of_N n) as [n ->] by (exists (Z.to_N z); rewrite Z2N.id; [done|apply Hf]).
    rewrite (proj2 (unumber_parse s n)) by done. eauto.
  - rewrite (proj2 (parse_bool_truth s x)) by done. destruct x; eauto.
  - eauto.
  - rewrite (bool_decide_ext (s = []) (seqb s [] = true)) in Hx by (by rewrite seqb_true). rewrite bool_decide_eq_true in Hx || idtac.
    destruct (seqb_spec s []) as [->|Hne]; [rewrite bool_decide_eq_true_2 in Hx by done|rewrite bool_decide_eq_false_2 in Hx by done];
      rewrite Hx; eauto.
Qed.
Lemma proper_accepts (Hlib : wf_lib G) opt t s v name a : plain_field G t -> wf_type t -> typed G t v -> carries G t v s a ->
  exists a', setWithProperType2 G opt t false s v name = (a', BOk).
Proof.
  intros [Hp|(e & -> & Hp)] Hw Ht H.
  - destruct (scalar_accepts opt t s v name a Hp Hw Ht H) as [a' E]. exists a'. by destruct t.
  - inversion H as [| | | | | |e' s' a0 Hc|e' b s' a0 Hc]; subst; cbn [setWithProperType2].
    + destruct (scalar_accepts opt (resolve G e) s _ name a0 Hp (wf_resolve G Hlib e Hw) (zero_typed G _ (wf_resolve G Hlib e Hw)) Hc) as [a' ->]. eauto.
    + apply typed_ptr_inv in Ht.
      destruct (scalar_accepts opt (resolve G e) s b name a0 Hp (wf_resolve G Hlib e Hw) Ht Hc) as [a' ->]. eauto.
Qed.
Lemma try_accepts (Hlib : wf_lib G) form files tag f t v vals : wf_type t -> typed G t v ->
  texts form tag f vals -> readable G f t v vals -> exists v', tryToSetValue2 G f t false v form files tag = (v', BOk).
Proof.
  intros Hw Ht Htx Hr. destruct Hr as [t v s rest a Hp Hc|e v vals Hne Hp Hc|t v s rest a Htf Hs|e v vals Hne Htf Hs].
  - destruct (try_texts G form files tag f t false v (s :: rest) Htx) as (key & opt & _ & ->).
    destruct (proper_accepts Hlib opt t s v key a Hp Hw Ht Hc) as [a' E]. exists a'.
    by destruct t.
  - destruct (try_texts G form files tag f (TSlice e) false v vals Htx) as (key & opt & _ & ->).
    assert (exists l, set_elems G opt (resolve G e) vals key = (l, BOk)) as [l ->].
    { assert (wf_type (resolve G e)) as Hwe by (by apply wf_resolve_slice). clear Hne Htx.
      induction Hc as [|s vals [a Hs] Hc IH]; [by exists []|]. cbn [set_elems].
      destruct (proper_accepts Hlib opt (resolve G e) s _ key a Hp Hwe (zero_typed G _ Hwe) Hs) as [a' ->].
      destruct IH as [l ->]. eauto. }
    destruct vals; [done|]. cbn [put]. eauto.
  - exists a. apply (try_time form files tag f t v (s :: rest)); [done..|]. eauto.
  - assert (exists l, Forall2 (shows G f (resolve G e)) vals l) as [l Hl].
    { clear -Hs. induction Hs as [|s vals [a Ha] _ [l Hl]]; [by exists []|]. exists (a :: l). by constructor. }
    exists (VSlice (Some l)). apply (try_times Hlib form files tag f e v vals); eauto.
Qed.
Lemma fields_all_ok rec form (files : gmap gostr (list D)) tag fs : forall vs, 
  (forall i f t v, fs !! i = Some (f, t) -> vs !! i = Some v -> snd (field_step G rec form files tag f t v) = BOk \/ snd (field_step G rec form files tag f t v) = BDiverge) ->
  snd (map_fields G rec form files tag fs vs) = BOk \/ snd (map_fields G rec form files tag fs vs) = BDiverge.
Proof.
  induction fs as [|[f t] fs IH]; intros [|v vs] H; [by left..|]. cbn [map_fields].
  destruct (H 0%nat f t v eq_refl eq_refl) as [H0|H0]; destruct (field_step G rec form files tag f t v) as [v' o]; cbn [snd] in H0; subst o; [|by right].
  destruct (IH vs) as [H1|H1]; [intros i f0 t0 v0; apply (H (S i))|..]; destruct (map_fields _ _ _ _ _ _ _) as [vs' o]; cbn [snd] in *; auto.
Qed.
Lemma well_accepted (Hlib : wf_lib G) form files tag fuel : forall fs v, wf_type (TStruct fs) -> typed G (TStruct fs) v ->
  (forall p fl f u w, place G (TStruct fs) v p fl f u w ->
     ~ open_field f \/
     (f_exported f = true /\ valued G f u w /\ (selected form files tag f -> exists vals, texts form tag f vals /\ readable G f u w vals)) \/
     ((exists t' v', opens G f u w t' v') /\ ~ selected form files tag f)) ->
  snd (_mapForm G fuel form files tag (TStruct fs) v) = BOk \/ snd (_mapForm G fuel form files tag (TStruct fs) v) = BDiverge.
Proof.
  induction fuel as [|fuel IH]; intros fs v Hw Ht H; [by right|].
  inversion Ht as [| | | | |? ? Hx|? vs Hf| | | | | | | | |]; subst; [done|].
  rewrite mapForm_struct.
  destruct (fields_all_ok (_mapForm G fuel form files tag) form files tag fs vs) as [H1|H1];
    [|left; by destruct (map_fields _ _ _ _ _ _ _)|right; by destruct (map_fields _ _ _ _ _ _ _)].
  intros i f t v Hi Hv. pose proof (wf_field _ _ _ _ Hw Hi) as Hwt. pose proof (typed_field G _ _ _ _ _ _ Ht Hi Hv) as Htt.
  destruct (H [i] [] f t v (place_here G fs vs i f t v Hi Hv)) as [Hc|[(Hx & Hl & Hr)|[(t' & v' & Ho) Hns]]].
  - left. by rewrite step_closed.
  - left. assert (forall t0 v0, wf_type t0 -> typed G t0 v0 -> (forall vals, readable G f t v vals -> readable G f t0 v0 vals) ->
      snd (tryToSetValue2 G f t0 false v0 form files tag) = BOk) as Htry.
    { intros t0 v0 Hw0 Ht0 Hr0. destruct (try_cases G form files tag f t0 false v0) as [[_ ->]|[(vals & key & opt & H1 & _)|(ups & key & H1 & H2 & _)]]; [done| |].
      - destruct Hr as (vals' & H2 & H3); [left; eauto|]. by destruct (try_accepts Hlib form files tag f t0 v0 vals' Hw0 Ht0 H2 (Hr0 _ H3)) as [v' ->].
      - destruct Hr as (vals' & H3 & _); [right; eauto|]. by apply H2 in H3. }
    assert (leaf G f t v \/ exists e', t = TPtr e' /\ resolve G e' = TTime /\ v = VPtr None /\ f_anon f = false) as [Hl'|(e' & -> & Ee & -> & Ha)].
    { destruct Hl as [Hl|[Ha Htf]]; [by left|]. destruct Htf as [->|(e' & -> & Ee)]; [left; split_and!; done|].
      inversion Htt as [| | | | |? ? Hx'| |? |? w0 Hw0| | | | | | |]; subst; [done|right; eauto 10|left; split_and!; done]. }
    + rewrite step_leaf by done. by apply Htry.
    + rewrite step_time by done. specialize (Htry TTime (zero G TTime) I time_typed_nil).
      destruct (tryToSetValue2 _ _ _ _ _ _ _ _) as [w0 o]. cbn [snd] in *. apply Htry. intros vals Hre.
      inversion Hre as [? ? s rest a Hpf Hc| |? ? s rest a Htf Hs|]; subst.
      * exfalso. destruct Hpf as [Hpf|(e0 & [= <-] & Hpf)]; [done|]. by rewrite Ee in Hpf.
      * inversion Hs; subst. apply (readable_time G f TTime _ s rest (VOpaque d)); [by left|by constructor].
  - inversion Ho as [f0 fs' w0 Hop|f0 e fs' Hx Er|f0 e fs' w0 Ha Er]; subst.
    + rewrite step_struct by done. apply IH; [done|done|]. intros p fl g u w Hp. apply (H (i :: p) (f :: fl) g u w). by eapply place_struct.
    + rewrite (step_new _ _ _ _ _ _ _ fs') by done. cbn [snd]. rewrite Er.
      assert (wf_type (TStruct fs')) as Hwf by (rewrite <- Er; by apply wf_resolve).
      apply IH; [done|by apply zero_typed|]. intros p fl g u w Hp. apply (H (i :: p) (f :: fl) g u w). eapply place_new; try done. by rewrite Er.
    + rewrite step_embedded by done. rewrite (mapForm_ptr _ _ _ _ _ _ fs') by done. cbn [snd].
      assert (wf_type (TStruct fs')) as Hwf by (rewrite <- Er; by apply wf_resolve).
      apply typed_ptr_inv in Htt. rewrite Er in Htt.
      apply IH; [done|done|]. intros p fl g u w Hp. apply (H (i :: p) (f :: fl) g u w). eapply place_embedded; try done. by rewrite Er.
Qed.
Lemma accepted fs v e form order files tag :
  wf_lib G -> resolve G e = TStruct fs -> wf_type (TStruct fs) -> typed G (TStruct fs) v -> finite_depth G (TStruct fs) v ->
  (forall p fl f u w, place G (TStruct fs) v p fl f u w ->
     ~ open_field f \/
     (f_exported f = true /\ valued G f u w /\ (selected form files tag f -> exists vals, texts form tag f vals /\ readable G f u w vals)) \/
     ((exists t' v', opens G f u w t' v') /\ ~ selected form files tag f)) ->
  exists fuel v', MapForm G fuel (Some (TPtr e, VPtr (Some v))) form order files tag = (Some (TPtr e, VPtr (Some v')), BOk).
Proof.
  intros Hlib Er Hw Ht Hfin H. destruct (finite_ends G fs v Hfin) as [fuel Hend]. exists fuel.
  exists (fst (_mapForm G fuel form files tag (TStruct fs) v)). rewrite (MapForm_struct _ _ fs) by done.
  destruct (well_accepted Hlib form files tag fuel fs v Hw Ht H) as [->|E]; [done|]. by apply (Hend form files tag) in E.
Qed.

(** ** Panics *)
Lemma scalar_no_panic opt t s v name msg : snd (set_scalar G opt t false s v name) <> BPanic msg.
Proof.
  destruct t; cbn [set_scalar put]; try discriminate;
    repeat match goal with
    | |- context [match ?e with _ => _ end] => destruct e; try discriminate
    end.
Qed.
Lemma proper_no_panic opt t s v name msg : typed G t v -> snd (setWithProperType2 G opt t false s v name) <> BPanic msg.
Proof.
  intros Ht. destruct t as [| | | | | | | | |e| | | | | | | |]; try apply scalar_no_panic. cbn [setWithProperType2].
  inversion Ht as [| | | | |? ? Hx'| |? |? w0 Hw0| | | | | | |]; subst; [done| |].
  - pose proof (scalar_no_panic opt (resolve G e) s (zero G (resolve G e)) name msg). by destruct (set_scalar _ _ _ _ _ _ _).
  - pose proof (scalar_no_panic opt (resolve G e) s w0 name msg). by destruct (set_scalar _ _ _ _ _ _ _).
Qed.
Lemma elems_no_panic opt e vals name msg : typed G e (zero G e) -> snd (set_elems G opt e vals name) <> BPanic msg.
Proof.
  intros Ht. induction vals as [|s vals IH]; [done|]. cbn [set_elems]. pose proof (proper_no_panic opt e s _ name msg Ht) as Hs.
  destruct (setWithProperType2 _ _ _ _ _ _ _) as [w o]. destruct o; try done. by destruct (set_elems _ _ _ _ _).
Qed.
Lemma try_no_panic (Hlib : wf_lib G) form files tag f t v msg : full form -> full files -> wf_type t ->
  (forall e, t = TPtr e -> typed G t v) -> snd (tryToSetValue2 G f t false v form files tag) <> BPanic msg.
Proof.
  intros Hfo Hfi Hw Ht. unfold tryToSetValue2. destruct (parseFormName f tag) as [name opt].
  destruct (seqb name (L "-")); [done|]. cbv zeta.
  set (input := match form !! name with Some vs => Some vs | None => _ end).
  assert (input <> Some []) as Hin.
  { unfold input. specialize (Hfo name). destruct (form !! name) as [vs|]; [congruence|]. by destruct (negb _). }
  clearbody input. destruct input as [vals|].
  - destruct vals as [|s rest]; [done|].
    assert (snd (setWithProperType2 G opt t false s v name) <> BPanic msg) as Hp.
    { destruct t; try apply scalar_no_panic. apply proper_no_panic. by apply (Ht t). }
    destruct t as [| | | | | | | | | |e| | | | | | |]; try exact Hp.
    pose proof (elems_no_panic opt (resolve G e) (s :: rest) name msg (zero_typed G _ (wf_resolve_slice G Hlib e Hw))) as He.
    destruct (set_elems _ _ _ _ _) as [l o]. destruct o; done.
  - specialize (Hfi name). destruct (files !! name) as [fs|]; [|done]. destruct fs as [|d fs]; [done|].
    destruct t as [| | | | | | | | |e|e| | | | | | |]; try done.
    + destruct (file_ptr G (TPtr e)); done.
    + destruct (file_ptr G e); done.
Qed.
Lemma fields_no_panic rec form (files : gmap gostr (list D)) tag msg fs : forall vs,
  (forall i f t v, fs !! i = Some (f, t) -> vs !! i = Some v -> snd (field_step G rec form files tag f t v) <> BPanic msg) ->
  snd (map_fields G rec form files tag fs vs) <> BPanic msg.
Proof.
  induction fs as [|[f t] fs IH]; intros [|v vs] H; [done..|]. cbn [map_fields].
  pose proof (H 0%nat f t v eq_refl eq_refl) as H0. destruct (field_step G rec form files tag f t v) as [v' o].
  destruct o; try done. pose proof (IH vs (fun i => H (S i))) as H1. by destruct (map_fields _ _ _ _ _ _ _).
Qed.
Lemma no_panic_at (Hlib : wf_lib G) form files tag msg fuel : full form -> full files -> forall fs v, wf_type (TStruct fs) -> typed G (TStruct fs) v ->
  (forall p fl f u w, place G (TStruct fs) v p fl f u w -> f_anon f = false) ->
  snd (_mapForm G fuel form files tag (TStruct fs) v) <> BPanic msg.
Proof.
  intros Hfo Hfi. induction fuel as [|fuel IH]; intros fs v Hw Ht H; [done|].
  inversion Ht as [| | | | |? ? Hx|? vs Hf| | | | | | | | |]; subst; [done|]. rewrite mapForm_struct.
  pose proof (fields_no_panic (_mapForm G fuel form files tag) form files tag msg fs vs) as Hfs.
  destruct (map_fields _ _ _ _ _ _ _) as [vs' o]. apply Hfs. clear Hfs. intros i f t v Hi Hv.
  pose proof (wf_field _ _ _ _ Hw Hi) as Hwt. pose proof (typed_field G _ _ _ _ _ _ Ht Hi Hv) as Htt.
  pose proof (H [i] [] f t v (place_here G fs vs i f t v Hi Hv)) as Ha.
  destruct (f_exported f) eqn:Hx; [|rewrite step_closed; [done|intros [?|?]; congruence]].
  unfold field_step. rewrite Hx, Ha. cbn [negb andb orb]. cbv zeta.
  assert (forall t0 v0, wf_type t0 -> (forall e, t0 = TPtr e -> typed G t0 v0) -> (forall fs', t0 = TStruct fs' -> snd (_mapForm G fuel form files tag t0 v0) <> BPanic msg) ->
    snd (let '(v1, o) := if kind_struct t0 && match t0 with TTime => false | _ => true end || false then _mapForm G fuel form files tag t0 v0 else (v0, BOk) in
      match o with BOk => tryToSetValue2 G f t0 false v1 form files tag | _ => (v1, o) end) <> BPanic msg) as Hrest.
  { intros t0 v0 Hw0 Ht0 Hrec. rewrite orb_false_r. destruct (kind_struct t0 && _) eqn:Ek.
    - assert (snd (_mapForm G fuel form files tag t0 v0) <> BPanic msg) as Hr.
      { destruct t0; try done; [by destruct fuel|by apply (Hrec fs0)]. }
      destruct (_mapForm G fuel form files tag t0 v0) as [v1 o1]. destruct o1; try done.
      apply try_no_panic; [done..|]. intros e ->. done.
    - by apply try_no_panic. }
  assert (snd (let '(v1, o) := if kind_struct t && match t with TTime => false | _ => true end || false then _mapForm G fuel form files tag t v else (v, BOk) in
      match o with BOk => tryToSetValue2 G f t false v1 form files tag | _ => (v1, o) end) <> BPanic msg) as Hplain.
  { apply Hrest; [done|by intros e ->|]. intros fs' ->. apply IH; [done|done|].
    intros p fl g u w Hp. apply (H (i :: p) (f :: fl) g u w). eapply place_struct; try done. by left. }
  destruct t as [| | | | | | | | |e| | | | | | | |]; try exact Hplain. destruct v as [| | | | |[w|]| | | | |]; try exact Hplain.
  destruct (negb (file_ptr G (TPtr e)) && kind_struct (resolve G e)); [|exact Hplain].
  pose proof (Hrest (resolve G e) (zero G (resolve G e))) as H0. cbv zeta in *.
  destruct (if kind_struct (resolve G e) && _ || false then _ else _) as [v1 o1].
  destruct (match o1 with BOk => _ | _ => _ end) as [v2 o2]. cbn [snd] in *. apply H0.
  - by apply wf_resolve.
  - intros e' Ee. rewrite Ee. by constructor.
  - intros fs' Ee. rewrite Ee. assert (wf_type (TStruct fs')) as Hwf by (rewrite <- Ee; by apply wf_resolve).
    apply IH; [done|by apply zero_typed|]. intros p fl g u w Hp. apply (H (i :: p) (f :: fl) g u w). eapply place_new; try done. by rewrite Ee.
Qed.
Lemma no_panic fuel e fs v form order files tag msg :
  wf_lib G -> resolve G e = TStruct fs -> wf_type (TStruct fs) -> typed G (TStruct fs) v -> full form -> full files ->
  (forall p fl f u w, place G (TStruct fs) v p fl f u w -> f_anon f = false) ->
  snd (MapForm G fuel (Some (TPtr e, VPtr (Some v))) form order files tag) <> BPanic msg.
Proof. intros. rewrite (MapForm_struct _ _ fs) by done. by apply no_panic_at. Qed.

(** ** Termination *)
Lemma ends_at fs v e : resolve G e = TStruct fs -> finite_depth G (TStruct fs) v ->
  exists fuel, forall form order files tag n, (fuel <= n)%nat ->
    MapForm G n (Some (TPtr e, VPtr (Some v))) form order files tag = MapForm G fuel (Some (TPtr e, VPtr (Some v))) form order files tag /\
    snd (MapForm G fuel (Some (TPtr e, VPtr (Some v))) form order files tag) <> BDiverge.
Proof.
  intros Er Hfin. destruct (finite_ends G fs v Hfin) as [fuel Hend]. exists fuel. intros form order files tag n Hn.
  rewrite !(MapForm_struct _ _ fs) by done. cbn [snd]. split; [|apply Hend]. by rewrite (mapForm_more G form files tag fuel n) by done.
Qed.
Lemma ends_deep fs v e fuel form order files tag obj : resolve G e = TStruct fs ->
  MapForm G fuel (Some (TPtr e, VPtr (Some v))) form order files tag = (obj, BOk) -> finite_depth G (TStruct fs) v.
Proof.
  intros Er E. rewrite (MapForm_struct _ _ fs) in E by done. injection E as _ E.
  apply (ok_finite G form files tag fuel _ _ (fst (_mapForm G fuel form files tag (TStruct fs) v))); [|eauto].
  rewrite <- E. by destruct (_mapForm _ _ _ _ _ _ _).
Qed.

(** ** Maps *)
Lemma map_all fuel e m form order (files : gmap gostr (list D)) tag : resolve G e = TMapL -> visits order form ->
  MapForm G fuel (Some (TPtr e, VPtr (Some (VMapL m)))) form order files tag =
    (Some (TPtr e, VPtr (Some (VMapL (Some (form ∪ default ∅ m))))), BOk).
Proof.
  intros Er Ho. apply order_list_to_map in Ho as [Hn Ho]. unfold MapForm. rewrite Er. cbn [setFormMap2].
  assert (copy_all order (default ∅ m) = form ∪ default ∅ m) as ->; [|done]. apply map_eq. intros k. rewrite copy_all_lookup by done. rewrite Ho, lookup_union. destruct (form !! k), (default ∅ m !! k); done.
Qed.
Lemma map_last fuel e m form order (files : gmap gostr (list D)) tag : resolve G e = TMapS -> visits order form ->
  (forall k, form !! k <> Some []) ->
  exists m', MapForm G fuel (Some (TPtr e, VPtr (Some (VMapS m)))) form order files tag = (Some (TPtr e, VPtr (Some (VMapS (Some m')))), BOk) /\
  forall k, (forall l s, form !! k = Some (l ++ [s]) -> m' !! k = Some s) /\ (form !! k = None -> m' !! k = m ≫= (.!! k)).
Proof.
  intros Er Ho Hv. pose proof (order_list_to_map _ _ Ho) as [Hn Hm]. unfold MapForm. rewrite Er. cbn [setFormMap2].
  destruct (copy_last_lookup order) with (m := default ∅ m) as (m' & -> & Hl).
  - rewrite Forall_forall. intros [k v] Hin E. cbn in E. subst v. apply (Hv k). apply elem_of_map_to_list. by rewrite <- Ho.
  - done.
  - exists m'. split; [done|]. intros k. rewrite Hl, Hm. split.
    + intros l s ->. apply last_snoc.
    + intros ->. by destruct m.
Qed.
Lemma map_panics fuel e m form order (files : gmap gostr (list D)) tag k : resolve G e = TMapS -> visits order form ->
  form !! k = Some [] ->
  exists obj msg, MapForm G fuel (Some (TPtr e, VPtr (Some (VMapS m)))) form order files tag = (obj, BPanic msg).
Proof.
  intros Er Ho Hk. unfold MapForm. rewrite Er. cbn [setFormMap2].
  destruct (copy_last_panic order (default ∅ m)) as (m' & msg & ->).
  - rewrite Forall_forall. intros H. apply (H (k, [])); [|done]. rewrite Ho. by apply elem_of_map_to_list.
  - eauto.
Qed.

(** ** Validation *)
Lemma validated t v : typed G t v ->
  ((exists msg, validate G (Some (t, v)) = Panic msg) <-> nil_inside G t v) /\
  (~ nil_inside G t v -> invalid G t v -> exists err, validate G (Some (t, v)) = Ok (Some err)) /\
  (~ nil_inside G t v -> ~ invalid G t v -> validate G (Some (t, v)) = Ok None).
Proof.
  intros Ht. pose proof (all_judged G _ t v (Nat.le_refl _) Ht) as H. unfold judged in H. unfold validate. cbn [ValidateStruct].
  destruct (ValidateStruct G t v) as [[err|]|msg|]; try done.
  - destruct H as [H1 H2]. split_and!; [split; [by intros [? ?]|done]|eauto|done].
  - destruct H as [H1 H2]. split_and!; [split; [by intros [? ?]|done]|done|done].
  - split_and!; [split; [done|eauto]|done|done].
Qed.
Lemma collected e l rs : Forall2 (fun w r => validate G (Some (resolve G e, w)) = Ok r) l rs ->
  validate G (Some (TSlice e, VSlice (Some l))) =
    Ok (match omap id rs with [] => None | errs => Some (EList errs) end).
Proof.
  intros H. unfold validate. change (ValidateStruct G TIface (VIface (Some (TSlice e, VSlice (Some l))))) with (ValidateStruct G (TSlice e) (VSlice (Some l))).
  rewrite validate_slice. assert (elem_errors G (resolve G e) l = Ok (omap id rs)) as ->; [|cbn [rbind]; by destruct (omap id rs)].
  induction H as [|w r l rs Hw H IH]; [done|]. cbn [elem_errors]. change (ValidateStruct G (resolve G e) w = Ok r) in Hw. rewrite Hw. cbn [rbind].
  rewrite IH. cbn [rbind]. by destruct r.
Qed.

(** ** Choosing the decoder *)
Lemma media_filter h m : media_type h m -> filterFlags h = m.
Proof.
  intros (rest & -> & H1 & H2 & [->|(c & r & -> & Hc)]); [rewrite app_nil_r; by apply filterFlags_all|by apply filterFlags_cut].
Qed.
Lemma media_exists h : media_type h (filterFlags h).
Proof.
  induction h as [|a h IH]; [exists []; split_and!; try apply not_elem_of_nil; auto|].
  cbn. destruct (Ascii.eqb_spec a " ") as [->|H1]; [exists (" "%char :: h); split_and!; try apply not_elem_of_nil; eauto 10|].
  destruct (Ascii.eqb_spec a ";") as [->|H2]; [exists (";"%char :: h); split_and!; try apply not_elem_of_nil; eauto 10|]. cbn.
  destruct IH as (rest & E & H3 & H4 & H5). exists rest. split_and!; [cbn; by rewrite <- E| | |done]; apply not_elem_of_cons; split; congruence || done.
Qed.
Lemma seqb_in a l : existsb (seqb a) l = true <-> a ∈ l.
Proof.
  rewrite existsb_exists. split.
  - intros (x & Hx & E). apply seqb_true in E as ->. by apply elem_of_list_In.
  - intros H. exists a. split; [by apply elem_of_list_In|apply seqb_refl].
Qed.
Lemma chooses_made method m : chooses method m (NewBindinger method m).
Proof.
  unfold NewBindinger. destruct (seqb_spec method (L "GET")) as [HG|HG]; [by left|].
  assert ((seqb method (L "POST") || seqb method (L "PUT") || seqb method (L "PATCH")) = existsb (seqb method) [L "POST"; L "PUT"; L "PATCH"]) as ->.
  { cbn [existsb]. by rewrite orb_false_r, orb_assoc. }
  destruct (existsb (seqb method) _) eqn:E1; [apply seqb_in in E1|].
  - destruct (seqb_spec m (L "multipart/form-data")) as [->|Hm]; [done|]. cbn [andb].
    destruct (seqb_spec m (L "application/json")) as [->|Hj]; [done|].
    destruct (seqb_spec m (L "application/xml")) as [->|Hx]; [split; [done|left]|].
    destruct (seqb_spec m (L "text/xml")) as [->|Ht]; [split; [done|right; left]|]. cbn [orb]. right. split; [|done].
    rewrite !elem_of_cons. intros [?|[?|[?|H]]]; try done. by apply elem_of_nil in H.
  - assert (method ∉ [L "POST"; L "PUT"; L "PATCH"]) as HM by (intros H; apply seqb_in in H; congruence). cbn [andb].
    destruct (seqb_spec m (L "application/json")) as [->|Hj]; [done|].
    destruct (seqb_spec m (L "application/xml")) as [->|Hx]; [split; [done|left]|].
    destruct (seqb_spec m (L "text/xml")) as [->|Ht]; [split; [done|right; left]|]. cbn [orb]. right. split; [|done].
    rewrite !elem_of_cons. intros [?|[?|[?|H]]]; try done. by apply elem_of_nil in H.
Qed.
Global Instance binder_dec : EqDecision binder.
Proof. solve_decision. Defined.
Lemma chooses_one method m b b' : chooses method m b -> chooses method m b' -> b = b'.
Proof.
  assert (L "GET" ∉ [L "POST"; L "PUT"; L "PATCH"]) as HG by (apply (bool_decide_eq_true _); vm_compute; reflexivity).
  assert (L "multipart/form-data" ∉ [L "application/xml"; L "text/xml"]) as Hx by (apply (bool_decide_eq_true _); vm_compute; reflexivity).
  assert (L "application/json" ∉ [L "application/xml"; L "text/xml"]) as Hj by (apply (bool_decide_eq_true _); vm_compute; reflexivity).
  assert (forall s, s ∉ [L "application/json"; L "application/xml"; L "text/xml"] -> s <> L "application/json" /\ s ∉ [L "application/xml"; L "text/xml"]) as Hn.
  { intros s H. apply not_elem_of_cons in H. done. }
  assert (forall b b', chooses method m b -> chooses method m b' -> b <> b' -> b = BJSON \/ (b = BXML /\ b' <> BJSON) \/ (b = BMultipart /\ b' = BForm) -> False) as Hone.
  { intros c c' H H' Hne Hc. destruct Hc as [->|[[-> Hc]|[-> ->]]].
    - destruct H as [H1 ->]. destruct c'; cbn [chooses] in H'; try done.
      + by destruct H'.
      + destruct H' as [|[H' _]]; [done|]. by apply Hn in H' as [? _].
      + by destruct H'.
    - destruct H as [H1 H2]. destruct c'; cbn [chooses] in H'; try done.
      + destruct H' as [|[H' _]]; [done|]. by apply Hn in H' as [_ ?].
      + destruct H' as [_ ->]. done.
    - destruct H as [H1 ->]. destruct H' as [->|[_ H']]; [done|]. by apply H'. }
  assert (b <> BQuery /\ b <> BHeader /\ b' <> BQuery /\ b' <> BHeader -> chooses method m b -> chooses method m b' -> b = b') as Hmain.
  { intros (N1 & N2 & N3 & N4) H H'.
    destruct (decide (b = b')) as [|Hne]; [done|]. exfalso.
    destruct b; try done; destruct b'; try done;
      first [apply (Hone _ _ H H'); [done|] ; first [by left|by right; left|by right; right]
            |apply (Hone _ _ H' H); [done|] ; first [by left|by right; left|by right; right]]. }
  intros H H'. apply Hmain; [|done|done]. split_and!; intros ->; done.
Qed.
Lemma choice method m b : NewBindinger method m = b <-> chooses method m b.
Proof. split; [intros <-; apply chooses_made|]. intros H. apply (chooses_one method m); [apply chooses_made|done]. Qed.
End Top.

(** ** ctx.Bind *)
Section BindFacts.
Context {A V D : Type} (G : golib D).
Notation gobj := (option (gotype * goval D)).
Variable mform : request -> option (gmap gostr (list gostr) * gmap gostr (list D)).
Variable query : request -> gmap gostr (list gostr).
Variable json_body xml_body : gostr * bool -> gobj -> gobj * bool.
Variable sniff : gostr -> gostr.
Variable parse_form : bool -> request -> gostr * bool -> gmap gostr (list gostr) * bool * gostr.
Implicit Types x : ctxobj A V.
Implicit Types c : conn V.
Implicit Types next : ctxobj A V -> conn V -> ending * (ctxobj A V * conn V).
Local Notation pexec := (pexec sniff parse_form).
Local Notation Bind := (Bind G mform query json_body xml_body).

Lemma validated_after fuel b s obj obj' : bind_map G fuel b s obj = (obj', BOk) -> then_validated G obj' (binder_Bind G fuel b s obj).
Proof.
  intros E. unfold binder_Bind. rewrite E. unfold then_validated. cbn [fst snd]. split; [done|].
  destruct (validate G obj') as [[e|]|m|]; split_and!; intros; congruence.
Qed.

Lemma close_spent b : bd_close (bd_left b []) = spent b.
Proof. by destruct b as [? []]. Qed.
Lemma bind_body fuel obj k next x c m (b : binder) :
  media_type (h_get (rq_header (cn_req c)) (L "Content-Type")) m -> chooses (rq_method (cn_req c)) m b -> b = BJSON \/ b = BXML ->
  let '(obj', ok) := (if decide (b = BJSON) then json_body else xml_body) (unread (cn_body c)) obj in
  exists out c', pexec next (Bind fuel obj k) x c = pexec next (k out) x c' /\
    (ok = false -> out = (obj', BErr EDecode)) /\ (ok = true -> then_validated G obj' out) /\
    cn_req c' = cn_req c /\ cn_rw c' = cn_rw c /\ cn_body c' = spent (cn_body c) /\ cn_form c' = cn_form c.
Proof.
  intros Hm Hc Hb. apply media_filter in Hm. apply choice in Hc.
  destruct ((if decide (b = BJSON) then json_body else xml_body) (unread (cn_body c)) obj) as [obj' ok] eqn:Ed.
  unfold BindCtx.Bind. cbn [Ctx.pexec Ctx.call Ctx.do_op]. rewrite Hm, Hc.
  exists (binder_Bind G fuel b (source_of mform query json_body xml_body (cn_req c) None (unread (cn_body c))) obj).
  assert (bind_map G fuel b (source_of mform query json_body xml_body (cn_req c) None (unread (cn_body c))) obj = (obj', if ok then BOk else BErr EDecode)) as Eb.
  { destruct Hb as [->| ->]; cbn [bind_map source_of s_json s_xml]; [rewrite decide_True in Ed by done|rewrite decide_False in Ed by done]; by rewrite Ed. }
  eexists. split; [destruct Hb as [->| ->]; reflexivity|]. split_and!; try done.
  - intros ->. unfold binder_Bind. by rewrite Eb.
  - intros ->. by apply validated_after.
  - apply close_spent.
Qed.
Lemma call_parse x c f ok rest : x_parsed x = false -> parse_form (is_multipart (cn_req c)) (cn_req c) (unread (cn_body c)) = (f, ok, rest) ->
  exists v, call sniff parse_form OParseForm x c =
  (let o := if ok then Norm tt else Throw (Some v) in
   (o, (set_parsed x, mkConn (cn_req c) (cn_rw c) (mkBody rest (bd_feed (cn_body c))) (Some f) (cn_log c ++ [EvCall OParseForm o])))).
Proof.
  intros Hx Hp. change (unread (cn_body c)) with (bd_all (cn_body c)) in Hp. unfold Ctx.call. cbn [Ctx.do_op]. rewrite Hx, Hp. destruct ok; [by exists []|]. eexists. reflexivity.
Qed.
Lemma call_parsed x c : x_parsed x = true -> call sniff parse_form OParseForm x c = (Norm tt, (x, log c (EvCall OParseForm (Norm tt)))).
Proof. intros Hx. unfold Ctx.call. cbn [Ctx.do_op]. by rewrite Hx. Qed.
Lemma bind_form fuel obj k next x c m (b : binder) f ok rest :
  media_type (h_get (rq_header (cn_req c)) (L "Content-Type")) m -> chooses (rq_method (cn_req c)) m b -> b = BForm \/ b = BMultipart ->
  x_parsed x = false -> parse_form (is_multipart (cn_req c)) (cn_req c) (unread (cn_body c)) = (f, ok, rest) ->
  (ok = false -> exists v x' c', pexec next (Bind fuel obj k) x c = (EThrow (Some v), (x', c')) /\ cn_rw c' = cn_rw c) /\
  (ok = true -> exists out c', pexec next (Bind fuel obj k) x c = pexec next (k out) (set_parsed x) c' /\
    match (if decide (b = BForm) then Some (f, ∅) else mform (cn_req c)) with
    | None => out = (obj, BErr EForm)
    | Some (form, files) => exists order, visits order form /\
       let '(obj', o) := MapForm G fuel obj form order files (L "form") in
       (o <> BOk -> out = (obj', o)) /\ (o = BOk -> then_validated G obj' out)
    end /\
    cn_req c' = cn_req c /\ cn_rw c' = cn_rw c /\ cn_body c' = mkBody rest (bd_feed (cn_body c)) /\ cn_form c' = Some f).
Proof.
  intros Hm Hc Hb Hx Hp. apply media_filter in Hm. apply choice in Hc.
  split; intros ->; unfold BindCtx.Bind; cbn [Ctx.pexec]; unfold Ctx.call at 1; cbn [Ctx.do_op]; rewrite Hm, Hc.
  - destruct (call_parse x (log c (EvCall ORequest (Norm (cn_req c)))) f false rest Hx Hp) as [v Ev].
    exists v, (set_parsed x). eexists. destruct Hb as [->| ->]; cbn [Ctx.pexec]; rewrite Ev; done.
  - destruct (call_parse x (log c (EvCall ORequest (Norm (cn_req c)))) f true rest Hx Hp) as [v Ev]. clear v.
    set (src := source_of mform query json_body xml_body (cn_req c) (Some f) ([], true)).
    exists (match b, mform (cn_req c) with BMultipart, None => (obj, BErr EForm) | _, _ => binder_Bind G fuel b src obj end).
    eexists. split; [|split].
    + destruct Hb as [->| ->]; cbn [Ctx.pexec]; rewrite Ev; cbn [BindWith Ctx.pexec]; rewrite call_parsed by done; reflexivity.
    + assert (forall form files, (if decide (b = BForm) then Some (f, ∅) else mform (cn_req c)) = Some (form, files) ->
        exists order, visits order form /\ let '(obj', o) := MapForm G fuel obj form order files (L "form") in
          (o <> BOk -> binder_Bind G fuel b src obj = (obj', o)) /\ (o = BOk -> then_validated G obj' (binder_Bind G fuel b src obj))) as Hall.
      { intros form files Ef. exists (map_to_list form). split; [by unfold visits|].
        assert (bind_map G fuel b src obj = MapForm G fuel obj form (map_to_list form) files (L "form")) as Eb.
        { destruct Hb as [->| ->]; [rewrite decide_True in Ef by done; by injection Ef as <- <-|rewrite decide_False in Ef by done].
          unfold src, source_of. cbn [bind_map s_mform s_files]. by rewrite Ef. }
        destruct (MapForm _ _ _ _ _ _ _) as [obj' o]. split.
        * intros Ho. unfold binder_Bind. rewrite Eb. by destruct o.
        * intros ->. by apply validated_after. }
      destruct Hb as [->| ->]; [rewrite decide_True in * by done; by apply (Hall f ∅)|rewrite decide_False in * by done].
      destruct (mform (cn_req c)) as [[form files]|]; [by apply Hall|done].
    + done.
Qed.

(** ** The parts of a request *)
Local Notation BindWith := (BindWith G mform query json_body xml_body).
Lemma bound_filled fuel b r f body obj form files tag : reads mform query r f b form files tag ->
  filled G fuel obj form files tag (binder_Bind G fuel b (source_of mform query json_body xml_body r (Some f) body) obj).
Proof.
  intros H. set (src := source_of mform query json_body xml_body r (Some f) body). exists (map_to_list form). split; [by unfold visits|].
  assert (bind_map G fuel b src obj = MapForm G fuel obj form (map_to_list form) files tag) as E.
  { destruct H as [|vals files' E| |]; cbn [bind_map]; unfold src, source_of; cbn; try done. by rewrite E. }
  pose proof (validated_after fuel b src obj (fst (MapForm G fuel obj form (map_to_list form) files tag))) as Hv.
  unfold binder_Bind in *. rewrite E in *. destruct (MapForm _ _ _ _ _ _ _) as [obj' o]. split; [by destruct o|]. intros ->. by apply Hv.
Qed.
Lemma bindwith fuel obj k next x c b f ok rest form files tag :
  x_parsed x = false -> parse_form (is_multipart (cn_req c)) (cn_req c) (unread (cn_body c)) = (f, ok, rest) ->
  reads mform query (cn_req c) f b form files tag ->
  (ok = false -> exists v x' c', pexec next (BindWith fuel obj b k) x c = (EThrow (Some v), (x', c')) /\ cn_rw c' = cn_rw c) /\
  (ok = true -> exists out c', pexec next (BindWith fuel obj b k) x c = pexec next (k out) (set_parsed x) c' /\
    filled G fuel obj form files tag out /\
    cn_req c' = cn_req c /\ cn_rw c' = cn_rw c /\ cn_body c' = mkBody rest (bd_feed (cn_body c)) /\ cn_form c' = Some f).
Proof.
  intros Hx Hp Hr. split; intros ->.
  - destruct (call_parse x c f false rest Hx Hp) as [v Ev]. exists v, (set_parsed x). eexists.
    destruct Hr; cbn [BindCtx.BindWith Ctx.pexec]; rewrite Ev; done.
  - destruct (call_parse x c f true rest Hx Hp) as [v Ev]. clear v.
    exists (binder_Bind G fuel b (source_of mform query json_body xml_body (cn_req c) (Some f) ([], true)) obj). eexists. split; [|split; [by apply bound_filled|]].
    + destruct Hr as [|vals files' E| |]; cbn [BindCtx.BindWith Ctx.pexec]; rewrite Ev; try reflexivity. cbn. by rewrite E.
    + done.
Qed.
Lemma bindwith_parsed fuel obj k next x c b f form files tag :
  x_parsed x = true -> cn_form c = Some f -> reads mform query (cn_req c) f b form files tag ->
  exists out c', pexec next (BindWith fuel obj b k) x c = pexec next (k out) x c' /\
    filled G fuel obj form files tag out /\
    cn_req c' = cn_req c /\ cn_rw c' = cn_rw c /\ cn_body c' = cn_body c /\ cn_form c' = cn_form c.
Proof.
  intros Hx Hf Hr. exists (binder_Bind G fuel b (source_of mform query json_body xml_body (cn_req c) (Some f) ([], true)) obj). eexists.
  split; [|split; [by apply bound_filled|]].
  - destruct Hr; cbn [BindCtx.BindWith Ctx.pexec]; rewrite call_parsed by done; unfold Ctx.call; cbn [Ctx.do_op log cn_form cn_req Ctx.pexec]; rewrite Hf; try reflexivity.
    match goal with E : mform _ = _ |- _ => by rewrite E end.
  - done.
Qed.
(** the multipart binder and a request that is no upload *)
Lemma bindwith_none fuel obj k next x c f ok rest :
  mform (cn_req c) = None ->
  x_parsed x = false -> parse_form (is_multipart (cn_req c)) (cn_req c) (unread (cn_body c)) = (f, ok, rest) ->
  (ok = false -> exists v x' c', pexec next (BindWith fuel obj BMultipart k) x c = (EThrow (Some v), (x', c')) /\ cn_rw c' = cn_rw c) /\
  (ok = true -> exists c', pexec next (BindWith fuel obj BMultipart k) x c = pexec next (k (obj, BErr EForm)) (set_parsed x) c' /\
    cn_req c' = cn_req c /\ cn_rw c' = cn_rw c /\ cn_form c' = Some f).
Proof.
  intros Hm Hx Hp. split; intros ->.
  - destruct (call_parse x c f false rest Hx Hp) as [v Ev]. exists v, (set_parsed x). eexists. cbn [BindCtx.BindWith Ctx.pexec]. rewrite Ev. done.
  - destruct (call_parse x c f true rest Hx Hp) as [v Ev]. clear v. eexists. cbn [BindCtx.BindWith Ctx.pexec]. rewrite Ev. cbn. rewrite Hm. done.
Qed.
Lemma bindwith_body fuel obj k next x c b : b = BJSON \/ b = BXML ->
  let '(obj', ok) := (if decide (b = BJSON) then json_body else xml_body) (unread (cn_body c)) obj in
  exists out c', pexec next (BindWith fuel obj b k) x c = pexec next (k out) x c' /\
    (ok = false -> out = (obj', BErr EDecode)) /\ (ok = true -> then_validated G obj' out) /\
    cn_req c' = cn_req c /\ cn_rw c' = cn_rw c /\ cn_body c' = spent (cn_body c) /\ cn_form c' = cn_form c.
Proof.
  intros Hb. destruct ((if decide (b = BJSON) then json_body else xml_body) (unread (cn_body c)) obj) as [obj' ok] eqn:Ed.
  exists (binder_Bind G fuel b (source_of mform query json_body xml_body (cn_req c) None (unread (cn_body c))) obj).
  assert (bind_map G fuel b (source_of mform query json_body xml_body (cn_req c) None (unread (cn_body c))) obj = (obj', if ok then BOk else BErr EDecode)) as Eb.
  { destruct Hb as [->| ->]; cbn [bind_map source_of s_json s_xml]; [rewrite decide_True in Ed by done|rewrite decide_False in Ed by done]; by rewrite Ed. }
  eexists. split; [destruct Hb as [->| ->]; reflexivity|]. split_and!; try done.
  - intros ->. unfold binder_Bind. by rewrite Eb.
  - intros ->. by apply validated_after.
  - apply close_spent.
Qed.
Lemma uri_filled fuel m obj : filled G fuel obj m ∅ (L "uri") (uri_Bind G fuel m obj).
Proof.
  exists (map_to_list m). split; [by unfold visits|]. unfold uri_Bind. destruct (MapForm _ _ _ _ _ _ _) as [obj' o].
  split; [by destruct o|]. intros ->. unfold then_validated. cbn [fst snd]. split; [done|].
  destruct (validate G obj') as [[e|]|msg|]; split_and!; intros; congruence.
Qed.
End BindFacts.
