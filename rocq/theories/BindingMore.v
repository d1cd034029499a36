(** Termination of binding, binding to maps, and validation. *)
From Coq Require Import ZArith NArith.
From Verif Require Import Base GoStr Strconv UtilSpec Header Binding BindingSpec BindingFacts.

Section More.
Context {D : Type} (G : golib D).
Notation goval := (goval D).

(** ** Nothing but the recursion can run out of fuel *)
Lemma scalar_ends opt t ro s (v : goval) name : snd (set_scalar G opt t ro s v name) <> BDiverge.
Proof.
  destruct t as [w|w| | |w| | | | | | | | | | | | |]; cbn [set_scalar put]; try discriminate.
  - destruct (parse_int 64 _) as [z []], ro; discriminate.
  - destruct (parse_uint 64 _) as [z []], ro; discriminate.
  - destruct (parse_int 64 _) as [z []], ro; discriminate.
  - destruct (parse_bool _) as [[] []], ro; discriminate.
  - destruct (g_float G w _), ro; discriminate.
  - destruct ro; discriminate.
  - destruct ro; [discriminate|]. destruct (time_value _ _ _); discriminate.
  - destruct ro; [discriminate|]. destruct (g_json _ _ _ _) as [? []]; discriminate.
  - destruct ro; [discriminate|]. destruct (g_json _ _ _ _) as [? []]; discriminate.
  - destruct ro; [discriminate|]. destruct (g_json _ _ _ _) as [? []]; discriminate.
  - destruct ro; [discriminate|]. destruct (g_json _ _ _ _) as [? []]; discriminate.
  - destruct ro; [discriminate|]. destruct (g_json _ _ _ _) as [? []]; discriminate.
Qed.
Lemma proper_ends opt t ro s (v : goval) name : snd (setWithProperType2 G opt t ro s v name) <> BDiverge.
Proof.
  destruct t; try apply scalar_ends. cbn [setWithProperType2]. destruct v as [| | | | |[w|]| | | | |]; try discriminate.
  - pose proof (scalar_ends opt (resolve G t) ro s w name). by destruct (set_scalar _ _ _ _ _ _ _).
  - destruct ro; [discriminate|]. pose proof (scalar_ends opt (resolve G t) false s (zero G (resolve G t)) name).
    by destruct (set_scalar _ _ _ _ _ _ _).
Qed.
Lemma elems_ends opt t vals name : snd (set_elems G opt t vals name) <> BDiverge.
Proof.
  induction vals as [|s vals IH]; [discriminate|]. cbn [set_elems].
  pose proof (proper_ends opt t false s (zero G t) name). destruct (setWithProperType2 _ _ _ _ _ _ _) as [w o].
  destruct o; try done. by destruct (set_elems _ _ _ _ _).
Qed.
Lemma try_ends f t ro (v : goval) form files tag : snd (tryToSetValue2 G f t ro v form files tag) <> BDiverge.
Proof.
  destruct (try_cases G form files tag f t ro v) as [[_ ->]|[(vals & key & opt & _ & _ & ->)|(fs & key & _ & _ & ->)]]; [discriminate| |].
  - assert (forall s, snd (setWithProperType2 G opt t ro s v key) <> BDiverge) as Hp by (intros s; apply proper_ends).
    destruct t; destruct vals as [|s vals]; try discriminate; try apply Hp.
    pose proof (elems_ends opt (resolve G t) (s :: vals) key). destruct (set_elems _ _ _ _ _) as [l o].
    destruct o; try done. by destruct ro.
  - destruct t; destruct fs as [|d fs]; try discriminate; try (destruct (file_ptr _ _); [destruct ro|]; discriminate).
Qed.

(** ** More fuel does not change a result *)
Section Mono.
Context (rec1 rec2 : gotype -> goval -> goval * bout) (form : gmap gostr (list gostr)) (files : gmap gostr (list D)) (tag : gostr).
Hypothesis Hrec : forall t v, snd (rec1 t v) <> BDiverge -> rec2 t v = rec1 t v.
Lemma step_mono f t v : snd (field_step G rec1 form files tag f t v) <> BDiverge ->
  field_step G rec2 form files tag f t v = field_step G rec1 form files tag f t v.
Proof.
  unfold field_step. destruct (_ && _); [done|]. cbv zeta.
  assert (forall t v,
    snd (let '(v, o) := if kind_struct t && match t with TTime => false | _ => true end || f_anon f then rec1 t v else (v, BOk) in
         match o with BOk => tryToSetValue2 G f t (negb (f_exported f)) v form files tag | _ => (v, o) end) <> BDiverge ->
    (let '(v, o) := if kind_struct t && match t with TTime => false | _ => true end || f_anon f then rec2 t v else (v, BOk) in
         match o with BOk => tryToSetValue2 G f t (negb (f_exported f)) v form files tag | _ => (v, o) end) =
    (let '(v, o) := if kind_struct t && match t with TTime => false | _ => true end || f_anon f then rec1 t v else (v, BOk) in
         match o with BOk => tryToSetValue2 G f t (negb (f_exported f)) v form files tag | _ => (v, o) end)) as H.
  { intros t' v' Hs. destruct (_ || _) in Hs |- *; [|done].
    rewrite (Hrec t' v'); [done|]. destruct (rec1 t' v') as [v1 o]. by destruct o. }
  destruct t as [| | | | | | | | |e| | | | | | | |]; try apply H.
  destruct v as [| | | | |[w|]| | | | |]; try apply H.
  destruct (_ && _); [|apply H]. destruct (negb (f_exported f)); [done|].
  intros Hs. rewrite H; [done|].
  match goal with |- snd ?x <> _ => destruct x as [w o] end. exact Hs.
Qed.
Lemma fields_mono fs : forall vs, snd (map_fields G rec1 form files tag fs vs) <> BDiverge ->
  map_fields G rec2 form files tag fs vs = map_fields G rec1 form files tag fs vs.
Proof.
  induction fs as [|[f t] fs IH]; intros [|v vs] H; try done. cbn [map_fields] in H |- *.
  rewrite step_mono by (destruct (field_step G rec1 form files tag f t v) as [v' o]; by destruct o).
  destruct (field_step G rec1 form files tag f t v) as [v' o]. destruct o; try done.
  rewrite IH; [done|]. by destruct (map_fields G rec1 form files tag fs vs).
Qed.
End Mono.
Lemma mapForm_ptr_other fuel form files tag e v : (forall fs, resolve G e <> TStruct fs) ->
  _mapForm G (S fuel) form files tag (TPtr e) (VPtr (Some v)) =
  (VPtr (Some v), match resolve G e with TTime | TFile => BOk | _ => BPanic (L "reflect: NumField of non-struct type") end).
Proof. intros H. cbn [_mapForm]. destruct (resolve G e) eqn:Er; try done. by destruct (H fs). Qed.
Lemma mapForm_mono form files tag fuel : forall t v, snd (_mapForm G fuel form files tag t v) <> BDiverge ->
  _mapForm G (S fuel) form files tag t v = _mapForm G fuel form files tag t v.
Proof.
  induction fuel as [|fuel IH]; [done|]. intros t v H.
  assert (forall fs vs, snd (map_fields G (_mapForm G fuel form files tag) form files tag fs vs) <> BDiverge ->
    map_fields G (_mapForm G (S fuel) form files tag) form files tag fs vs = map_fields G (_mapForm G fuel form files tag) form files tag fs vs) as Hf.
  { intros fs vs. apply fields_mono. exact IH. }
  assert (forall fs v, snd (_mapForm G (S fuel) form files tag (TStruct fs) v) <> BDiverge ->
    _mapForm G (S (S fuel)) form files tag (TStruct fs) v = _mapForm G (S fuel) form files tag (TStruct fs) v) as Hs.
  { intros fs w Hd. destruct w; try done. rewrite !mapForm_struct in *. rewrite Hf; [done|].
    by destruct (map_fields G (_mapForm G fuel form files tag) form files tag fs vs). }
  destruct t as [| | | | | | | |fs|e| | | | | | | |]; try done; [by apply Hs|].
  destruct v as [| | | | |[w|]| | | | |]; try done.
  assert ((exists fs, resolve G e = TStruct fs) \/ (forall fs, resolve G e <> TStruct fs)) as [[fs Er]|Hn]
    by (destruct (resolve G e); eauto; right; congruence).
  - rewrite !(mapForm_ptr G _ _ _ _ _ fs) in * by done. cbn [snd] in H. rewrite Hs by done. done.
  - by rewrite !mapForm_ptr_other.
Qed.
Lemma mapForm_more form files tag fuel m t v : snd (_mapForm G fuel form files tag t v) <> BDiverge -> fuel <= m ->
  _mapForm G m form files tag t v = _mapForm G fuel form files tag t v.
Proof.
  intros H Hle. induction Hle as [|m Hle IH]; [done|]. rewrite <- IH. apply mapForm_mono. by rewrite IH.
Qed.

(** ** Structs of finite depth *)
Lemma opens_dec f t (v : goval) : (exists t' v', opens G f t v t' v') \/ (forall t' v', ~ opens G f t v t' v').
Proof.
  assert ((exists fs, t = TStruct fs) \/ (exists e, t = TPtr e) \/ ((forall fs, t <> TStruct fs) /\ (forall e, t <> TPtr e)))
    as [[fs ->]|[[e ->]|[H1 H2]]] by (destruct t; eauto; right; right; split; congruence).
  - assert (Decision (open_field f)) as [Ho|Ho] by (unfold open_field; apply _).
    + left. eexists _, _. by constructor.
    + right. intros t' v' H. inversion H; by subst.
  - assert ((exists fs, resolve G e = TStruct fs) \/ (forall fs, resolve G e <> TStruct fs)) as [[fs Er]|Hn]
      by (destruct (resolve G e); eauto; right; congruence).
    + assert (v = VPtr None \/ (exists w, v = VPtr (Some w)) \/ (forall p, v <> VPtr p)) as [->|[[w ->]|Hv]]
        by (destruct v as [| | | | |[w|]| | | | |]; eauto; right; right; congruence).
      * destruct (f_exported f) eqn:Hx; [left; eexists _, _; by apply (opens_new G f e fs)|].
        right. intros t' v' H. inversion H; subst; congruence.
      * destruct (f_anon f) eqn:Hx; [left; eexists _, _; by apply (opens_embedded G f e fs)|].
        right. intros t' v' H. inversion H; subst; congruence.
      * right. intros t' v' H. inversion H; subst; by eapply Hv.
    + right. intros t' v' H. inversion H; subst; by eapply Hn.
  - right. intros t' v' H. inversion H; subst; [by eapply H1|by eapply H2..].
Qed.
Lemma opens_struct_type f t (v : goval) t' v' : opens G f t v t' v' -> exists fs, t' = TStruct fs.
Proof. intros H. inversion H; subst; eauto. Qed.
Lemma opens_unique f t (v : goval) t1 v1 t2 v2 : opens G f t v t1 v1 -> opens G f t v t2 v2 -> t1 = t2 /\ v1 = v2.
Proof.
  intros H1 H2. inversion H1; subst; inversion H2; subst; try done.
  - assert (TStruct fs = TStruct fs0) as [= ->] by congruence. done.
  - assert (TStruct fs = TStruct fs0) as [= ->] by congruence. done.
Qed.
(** a field whose struct is done does not run out of fuel *)
Lemma step_ends form files tag n f t v : 1 <= n ->
  (forall t' v', opens G f t v t' v' -> snd (_mapForm G n form files tag t' v') <> BDiverge) ->
  snd (field_step G (_mapForm G n form files tag) form files tag f t v) <> BDiverge.
Proof.
  intros Hn Ho. unfold field_step. destruct (_ && _) eqn:Eopen; [done|]. cbv zeta.
  set (rest := fun t v => let '(v, o) := if kind_struct t && match t with TTime => false | _ => true end || f_anon f
     then _mapForm G n form files tag t v else (v, BOk) in
     match o with BOk => tryToSetValue2 G f t (negb (f_exported f)) v form files tag | _ => (v, o) end).
  assert (forall t v, snd (_mapForm G n form files tag t v) <> BDiverge -> snd (rest t v) <> BDiverge) as Hrest.
  { intros t' v' H. unfold rest. destruct (_ || _).
    - destruct (_mapForm G n form files tag t' v') as [v1 o]. destruct o; try done. apply try_ends.
    - apply try_ends. }
  assert (forall t v, kind_struct t && match t with TTime => false | _ => true end || f_anon f = false -> snd (rest t v) <> BDiverge) as Hnone.
  { intros t' v' H. unfold rest. rewrite H. apply try_ends. }
  assert (open_field f) as Hof.
  { unfold open_field. destruct (f_exported f), (f_anon f); try done; auto. }
  destruct n as [|n]; [lia|].
  assert (forall t v, (forall fs, t <> TStruct fs) ->
    match t with TPtr _ => match v with VPtr (Some _) => False | _ => True end | _ => True end ->
    snd (_mapForm G (S n) form files tag t v) <> BDiverge) as Hother.
  { intros t' v' H1 H2. cbn [_mapForm]. destruct t' as [| | | | | | | |fs|e| | | | | | | |]; try done; [by destruct (H1 fs)|].
    destruct v' as [| | | | |[w|]| | | | |]; try done. }
  change (snd (match t, v with
    | TPtr e, VPtr None =>
        if negb (file_ptr G t) && (f_anon f || kind_struct (resolve G e)) then
          if negb (f_exported f) then (v, BPanic ro_panic)
          else let '(w, o) := rest (resolve G e) (zero G (resolve G e)) in (VPtr (Some w), o)
        else rest t v
    | _, _ => rest t v
    end) <> BDiverge).
  assert ((exists fs, t = TStruct fs) \/ (exists e, t = TPtr e) \/ ((forall fs, t <> TStruct fs) /\ (forall e, t <> TPtr e)))
    as [[fs ->]|[[e ->]|[H1 H2]]] by (destruct t; eauto; right; right; split; congruence).
  - apply Hrest. apply Ho. by constructor.
  - destruct v as [| | | | |[w|]| | | | |]; try (apply Hrest, Hother; [done|done]).
    + (* an existing target *)
      destruct (f_anon f) eqn:Ha; [|by apply Hnone].
      apply Hrest. destruct (resolve G e) as [| | | | | | | |fs|?| | | | | | | |] eqn:Er; try (cbn [_mapForm]; rewrite Er; done).
      rewrite (mapForm_ptr G _ _ _ _ _ fs) by done. cbn [snd]. apply Ho. by apply opens_embedded.
    + destruct (negb (file_ptr G (TPtr e)) && (f_anon f || kind_struct (resolve G e))); [|apply Hrest, Hother; done].
      destruct (f_exported f) eqn:Hx; [|done]. cbn [negb].
      assert (snd (rest (resolve G e) (zero G (resolve G e))) <> BDiverge) as H; [|by destruct (rest _ _)].
      apply Hrest. destruct (resolve G e) as [| | | | | | | |fs|?| | | | | | | |] eqn:Er; try (apply Hother; done).
      apply Ho. by apply opens_new.
  - assert (snd (rest t v) <> BDiverge) as H.
    { apply Hrest, Hother; [done|]. destruct t; try done. by destruct (H2 t). }
    destruct t; try exact H. by destruct (H2 t).
Qed.
Lemma finite_ends fs v : finite_depth G (TStruct fs) v ->
  exists fuel, forall form files tag, snd (_mapForm G fuel form files tag (TStruct fs) v) <> BDiverge.
Proof.
  intros Hacc. remember (TStruct fs, v) as x eqn:Ex. unfold finite_depth in Hacc. rewrite <- Ex in Hacc. revert fs v Ex.
  induction Hacc as [x _ IH]. intros fs0 v0 ->.
  destruct v0 as [| | | |vs0| | | | | |]; try (exists 1; done).
  assert (exists n, forall form files tag, snd (map_fields G (_mapForm G n form files tag) form files tag fs0 vs0) <> BDiverge) as [n Hn].
  { assert (forall i f t v t' v', fs0 !! i = Some (f, t) -> vs0 !! i = Some v -> opens G f t v t' v' ->
      exists fuel, forall form files tag, snd (_mapForm G fuel form files tag t' v') <> BDiverge) as H.
    { intros i f t v t' v' H1 H2 H3. destruct (opens_struct_type _ _ _ _ _ H3) as [fs' ->].
      apply (IH (TStruct fs', v')); [|done]. by apply (below_intro G fs0 vs0 i f t v). }
    clear IH. revert vs0 H. induction fs0 as [|[f t] fs IHfs]; intros vs0 H; [by exists 0|].
    destruct vs0 as [|v vs]; [by exists 0|].
    destruct (IHfs vs) as [n Hn]. { intros i f' t' v' t1 v1 H1 H2. by apply (H (S i) f' t' v'). }
    assert (exists m, forall form files tag t' v', opens G f t v t' v' -> snd (_mapForm G m form files tag t' v') <> BDiverge) as [m Hm].
    { destruct (opens_dec f t v) as [(t1 & v1 & H1)|H1].
      - destruct (H 0 f t v t1 v1 eq_refl eq_refl H1) as [m Hm]. exists m. intros form files tag t' v' H2.
        destruct (opens_unique _ _ _ _ _ _ _ H1 H2) as [<- <-]. apply Hm.
      - exists 0. intros form files tag t' v' H2. by destruct (H1 t' v'). }
    exists (S (Nat.max n m)). intros form files tag. cbn [map_fields].
    pose proof (step_ends form files tag (S (Nat.max n m)) f t v ltac:(lia)) as Hs.
    destruct (field_step _ _ _ _ _ _ _ _) as [v' o] eqn:Es.
    assert (o <> BDiverge) as Ho.
    { apply Hs. intros t' v1 H2. rewrite (mapForm_more _ _ _ m); [by apply Hm|by apply Hm|lia]. }
    destruct o; try done.
    rewrite (fields_mono (_mapForm G n form files tag)).
    - pose proof (Hn form files tag). by destruct (map_fields _ _ _ _ _ _ _).
    - intros t1 v1 H1. apply mapForm_more; [done|lia].
    - apply Hn. }
  exists (S n). intros form files tag. rewrite mapForm_struct. pose proof (Hn form files tag). by destruct (map_fields _ _ _ _ _ _ _).
Qed.
Lemma not_recursive_finite t : not_recursive G t -> forall v, finite_depth G t v.
Proof.
  intros Hacc. unfold not_recursive in Hacc. induction Hacc as [t _ IH]. intros v. constructor. intros [t' v'] H.
  inversion H as [fs vs i f u w ? ? H1 H2 H3]; subst. apply IH.
  inversion H3 as [f0 fs' w0 Ho|f0 e fs' Hx Er|f0 e fs' w0 Ha Er]; subst; [by apply (below_type_struct G fs i f)| |];
    rewrite <- Er; by apply (below_type_ptr G fs i f).
Qed.
(** success is only possible at finite depth *)
Lemma ok_finite form files tag fuel : forall t v v', _mapForm G fuel form files tag t v = (v', BOk) -> (exists fs, t = TStruct fs) ->
  finite_depth G t v.
Proof.
  induction fuel as [|fuel IH]; [done|]. intros t v v' E [fs ->].
  constructor. intros [t1 v1] H. inversion H as [fs0 vs i f u w ? ? H1 H2 H3]; subst.
  rewrite mapForm_struct in E. destruct (map_fields _ _ _ _ _ _ _) as [vs' o] eqn:Em. injection E as <- ->.
  destruct (map_fields_ok G _ _ _ _ _ _ _ Em) as [_ Hs]. destruct (Hs i f u w H1 H2) as (w' & _ & Es).
  assert (exists w1, _mapForm G fuel form files tag t1 v1 = (w1, BOk)) as [w1 E1].
  { clear - Es H3. inversion H3 as [f0 fs w0 Ho|f0 e fs Hx Er|f0 e fs v Ha Er]; subst; unfold field_step in Es.
    - assert (negb (f_exported f) && negb (f_anon f) = false) as Hf by (destruct Ho as [->| ->]; [done|by rewrite andb_false_r]).
      rewrite Hf in Es. cbv zeta in Es. cbn [kind_struct andb orb] in Es.
      destruct (_mapForm G fuel form files tag (TStruct fs) v1) as [w1 o]. exists w1. by destruct o.
    - rewrite Hx in Es. cbv zeta in Es. cbn [negb andb] in Es. unfold file_ptr in Es. rewrite Er in Es. cbn [negb andb kind_struct orb] in Es.
      rewrite orb_true_r in Es. destruct (_mapForm G fuel form files tag (TStruct fs) _) as [w1 o]. exists w1. by destruct o.
    - rewrite Ha, andb_false_r, orb_true_r in Es. cbv zeta in Es. rewrite (mapForm_ptr G _ _ _ _ _ fs) in Es by done.
      destruct (_mapForm G fuel form files tag (TStruct fs) v1) as [w1 o]. exists w1. by destruct o. }
  apply (IH t1 v1 w1 E1). by apply (opens_struct_type f u w t1 v1).
Qed.

(** ** Maps *)
Lemma copy_all_lookup order m k : NoDup order.*1 ->
  copy_all order m !! k = match list_to_map (M := gmap gostr (list gostr)) order !! k with Some v => Some v | None => m !! k end.
Proof.
  unfold copy_all. revert m. induction order as [|[k0 v0] order IH]; intros m Hn; [done|]. cbn [fmap list_fmap fst] in Hn.
  apply NoDup_cons in Hn as [Hk Hn]. cbn [fold_left fst snd]. rewrite IH by done. cbn [list_to_map foldr uncurry fst snd].
  destruct (decide (k = k0)) as [->|Hne].
  - rewrite (proj1 (not_elem_of_list_to_map order k0)) by done. by rewrite !lookup_insert.
  - rewrite !lookup_insert_ne by done. done.
Qed.
Lemma copy_last_lookup order : Forall (fun kv => snd kv <> []) order -> forall m, NoDup order.*1 ->
  exists m', copy_last order m = (m', BOk) /\
  forall k, m' !! k = match list_to_map (M := gmap gostr (list gostr)) order !! k with Some v => last v | None => m !! k end.
Proof.
  induction 1 as [|[k0 v0] order Hv Hf IH]; intros m Hn; [by exists m|]. cbn [fmap list_fmap fst] in Hn.
  apply NoDup_cons in Hn as [Hk Hn]. cbn [copy_last].
  destruct (last v0) as [s|] eqn:El; [|by apply last_None in El]. destruct (IH (<[k0 := s]> m) Hn) as (m' & E & H). exists m'. split; [done|].
  intros k. rewrite H. cbn [list_to_map foldr uncurry fst snd]. destruct (decide (k = k0)) as [->|Hne].
  - rewrite (proj1 (not_elem_of_list_to_map order k0)) by done. rewrite !lookup_insert. done.
  - rewrite !lookup_insert_ne by done. done.
Qed.
Lemma copy_last_panic order : forall m, ~ Forall (fun kv => snd kv <> []) order -> exists m' msg, copy_last order m = (m', BPanic msg).
Proof.
  induction order as [|[k0 v0] order IH]; intros m H; [by destruct H|]. cbn [copy_last].
  destruct (last v0) as [s|] eqn:El; [|by eexists _, _]. apply IH. intros Hf. apply H. constructor; [|done].
  cbn. by intros ->.
Qed.
Lemma order_list_to_map (form : gmap gostr (list gostr)) order : order ≡ₚ map_to_list form ->
  NoDup order.*1 /\ list_to_map order = form.
Proof.
  intros H. assert (NoDup order.*1) as Hn by (rewrite H; apply NoDup_fst_map_to_list). split; [done|].
  rewrite (list_to_map_proper order (map_to_list form)); [apply list_to_map_to_list|done|done].
Qed.

(** ** Validation *)
Fixpoint val_size (v : goval) : nat :=
  match v with
  | VStruct l | VSlice (Some l) | VArray l => S (fold_right (fun w n => val_size w + n) 0 l)
  | VPtr (Some w) => S (val_size w)
  | VIface (Some (_, w)) => S (val_size w)
  | _ => 1
  end.
Lemma val_size_elem (l : list goval) w : w ∈ l -> val_size w <= fold_right (fun w n => val_size w + n) 0 l.
Proof. induction 1; cbn; lia. Qed.

(** the errors of the elements *)
Definition elem_errors (e : gotype) : list goval -> res (list berr) :=
  fix go (l : list goval) : res (list berr) :=
    match l with
    | [] => Ok []
    | w :: l' =>
        let! r := ValidateStruct G e w in
        let! rs := go l' in
        Ok (match r with Some err => err :: rs | None => rs end)
    end.
Lemma validate_slice e l : ValidateStruct G (TSlice e) (VSlice (Some l)) =
  let! errs := elem_errors (resolve G e) l in Ok (match errs with [] => None | _ => Some (EList errs) end).
Proof. reflexivity. Qed.
Lemma validate_array n e l : ValidateStruct G (TArray n e) (VArray l) =
  let! errs := elem_errors e l in Ok (match errs with [] => None | _ => Some (EList errs) end).
Proof. reflexivity. Qed.

Ltac no_struct := match goal with K : _ \/ _ |- _ => by destruct K as [[? ?]|[?|?]] end.
(** what validation returns: a panic iff there is a nil pointer, else an error iff invalid *)
Definition judged (t : gotype) (v : goval) : Prop :=
  match ValidateStruct G t v with
  | Panic _ => nil_inside G t v
  | Ok None => ~ nil_inside G t v /\ ~ invalid G t v
  | Ok (Some _) => ~ nil_inside G t v /\ invalid G t v
  | Diverge => False
  end.
Lemma elems_judged e l : Forall (judged e) l ->
  match elem_errors e l with
  | Panic _ => exists w, w ∈ l /\ nil_inside G e w
  | Ok [] => forall w, w ∈ l -> ~ nil_inside G e w /\ ~ invalid G e w
  | Ok _ => (forall w, w ∈ l -> ~ nil_inside G e w) /\ exists w, w ∈ l /\ invalid G e w
  | Diverge => False
  end.
Proof.
  induction 1 as [|w l Hw Hl IH]; [intros w Hw; by apply elem_of_nil in Hw|].
  cbn [elem_errors]. unfold judged in Hw. destruct (ValidateStruct G e w) as [r|m|]; cbn [rbind]; [|exists w; split; [apply elem_of_list_here|done]|done].
  destruct (elem_errors e l) as [rs|m|]; cbn [rbind].
  - destruct r as [err|].
    + destruct Hw as [H1 H2]. split; [|exists w; split; [apply elem_of_list_here|done]].
      intros w' Hin. apply elem_of_cons in Hin as [->|Hin]; [done|]. destruct rs; [by apply IH|by apply (proj1 IH)].
    + destruct Hw as [H1 H2]. destruct rs as [|r rs].
      * intros w' Hin. apply elem_of_cons in Hin as [->|Hin]; [done|by apply IH].
      * destruct IH as [H3 (w0 & H4 & H5)]. split; [|exists w0; split; [by apply elem_of_list_further|done]].
        intros w' Hin. apply elem_of_cons in Hin as [->|Hin]; [done|by apply H3].
  - destruct IH as (w0 & H4 & H5). exists w0. split; [by apply elem_of_list_further|done].
  - done.
Qed.
Lemma all_judged n : forall t v, val_size v <= n -> typed G t v -> judged t v.
Proof.
  induction n as [|n IH]; intros t v Hn Ht; [destruct v as [| | | | |[]|[]| | | |[[]|]]; cbn in Hn; lia|].
  assert (forall e l, S (fold_right (fun w n => val_size w + n) 0 l) <= S n -> Forall (typed G e) l -> Forall (judged e) l) as Hel.
  { intros e l Hl Hf. rewrite Forall_forall in *. intros w Hin. apply IH; [|by apply Hf].
    pose proof (val_size_elem l w Hin). lia. }
  inversion Ht as [w z Hz|z Hz|w z Hz|b|s|t' x Hx|fs vs Hf|e|e w Hw|e|e l Hl|m e l Hlen Hl|m|m| |t' w Hw]; subst; unfold judged; cbn [ValidateStruct].
  - split; intros H; inversion H; subst; no_struct.
  - split; intros H; inversion H; subst; no_struct.
  - split; intros H; inversion H; subst; no_struct.
  - split; intros H; inversion H; subst; no_struct.
  - split; intros H; inversion H; subst; no_struct.
  - destruct (kind_struct t) eqn:Ek.
    + assert (~ nil_inside G t (VOpaque x)) as Hnil by (intros H; inversion H). destruct (g_struct G t (VOpaque x)) as [err|] eqn:Es.
      * split; [done|]. apply (invalid_struct G _ _ err); [destruct t; try done; eauto|done].
      * split; [done|]. intros H. inversion H; subst; congruence.
    + split; [intros H; inversion H|]. intros H. inversion H as [| | |? ? ? Hk| |]; subst. destruct Hk as [[? ->]|[->| ->]]; done.
  - assert (~ nil_inside G (TStruct fs) (VStruct vs)) as Hnil by (intros H; inversion H).
    destruct (g_struct G (TStruct fs) (VStruct vs)) as [err|] eqn:Es.
    + split; [done|]. apply (invalid_struct G _ _ err); [eauto|done].
    + split; [done|]. intros H. inversion H; subst; congruence.
  - constructor.
  - assert (judged (resolve G e) w) as Hj by (apply IH; [cbn in Hn; lia|done]). unfold judged in Hj.
    destruct (ValidateStruct G (resolve G e) w) as [[err|]|m|]; [| |by constructor|done].
    + destruct Hj as [H1 H2]. split; [|by constructor]. intros H. by inversion H.
    + destruct Hj as [H1 H2]. split; intros H; inversion H; subst; try done; no_struct.
  - split; intros H; inversion H; subst; no_struct.
  - change (match ValidateStruct G (TSlice e) (VSlice (Some l)) with
      | Ok (Some _) => ¬ nil_inside G (TSlice e) (VSlice (Some l)) ∧ invalid G (TSlice e) (VSlice (Some l))
      | Ok None => ¬ nil_inside G (TSlice e) (VSlice (Some l)) ∧ ¬ invalid G (TSlice e) (VSlice (Some l))
      | Panic _ => nil_inside G (TSlice e) (VSlice (Some l)) | Diverge => False end).
    rewrite validate_slice. pose proof (elems_judged (resolve G e) l (Hel _ _ Hn Hl)) as H.
    destruct (elem_errors (resolve G e) l) as [errs|m|]; cbn [rbind]; [|destruct H as (w & H1 & H2); by apply (nil_slice G e l w)|done].
    destruct errs as [|err errs].
    + split; intros Hx; inversion Hx; subst; try no_struct; match goal with Hin : ?w ∈ _ |- _ => destruct (H w Hin); contradiction end.
    + destruct H as [H1 (w & H2 & H3)]. split; [|by apply (invalid_slice G e l w)]. intros Hx. inversion Hx; subst. by eapply H1.
  - change (match ValidateStruct G (TArray (length l) e) (VArray l) with
      | Ok (Some _) => ¬ nil_inside G (TArray (length l) e) (VArray l) ∧ invalid G (TArray (length l) e) (VArray l)
      | Ok None => ¬ nil_inside G (TArray (length l) e) (VArray l) ∧ ¬ invalid G (TArray (length l) e) (VArray l)
      | Panic _ => nil_inside G (TArray (length l) e) (VArray l) | Diverge => False end).
    rewrite validate_array. pose proof (elems_judged e l (Hel _ _ Hn Hl)) as H.
    destruct (elem_errors e l) as [errs|m|]; cbn [rbind]; [|destruct H as (w & H1 & H2); by apply (nil_array G _ e l w)|done].
    destruct errs as [|err errs].
    + split; intros Hx; inversion Hx; subst; try no_struct; match goal with Hin : ?w ∈ _ |- _ => destruct (H w Hin); contradiction end.
    + destruct H as [H1 (w & H2 & H3)]. split; [|by apply (invalid_array G _ e l w)]. intros Hx. inversion Hx; subst. by eapply H1.
  - split; intros H; inversion H; subst; no_struct.
  - split; intros H; inversion H; subst; no_struct.
  - split; [intros H; by inversion H|constructor].
  - assert (judged t' w) as Hj by (apply IH; [cbn in Hn; lia|done]). unfold judged in Hj.
    destruct (ValidateStruct G t' w) as [[err|]|m|]; [| |by constructor|done].
    + destruct Hj as [H1 H2]. split; [|by constructor]. intros H. by inversion H.
    + destruct Hj as [H1 H2]. split; intros H; inversion H; subst; try done; no_struct.
Qed.
End More.
