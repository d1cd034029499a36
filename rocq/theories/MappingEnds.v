(** Facts about the mapping of the Bind2 methods: that calls end, and calls of the binders. *)
From Coq Require Import ZArith NArith.
From Verif Require Import Base GoStr GoStrFacts Strconv UtilSpec StrconvFacts Header Binding BindingSpec BindingFacts BindingTop BindingMore Mapping MappingSpec MappingFacts MappingFiles MappingWalk MappingTop MappingAccept.

Section Ends.
Context {D : Type} (G : golib D) (H : filelib D).
Notation goval := (goval D).
Implicit Types s : setter D.

(** ** Calls end *)
Lemma assign_ends acc (v v' : goval) : snd (assign acc v v') <> BDiverge.
Proof. unfold assign. destruct (a_hidden acc); [done|]. by destruct (negb _). Qed.
Lemma proper_ends acc x f t (v : goval) : snd (setWithProperType G acc x f t v) <> BDiverge.
Proof.
  destruct t; cbn [setWithProperType]; try done; try apply assign_ends;
    unfold setIntField, setUintField, setTimeDuration, setBoolField, setFloatField, setTimeField;
    repeat (match goal with |- context [match ?e with _ => _ end] => destruct e end; try done; try apply assign_ends).
Qed.
Lemma array_ends acc f e vals : forall l : list goval, snd (setArray G acc f e vals l) <> BDiverge.
Proof.
  induction vals as [|x vals IH]; intros [|w l]; try done. cbn [setArray]. pose proof (proper_ends acc x f e w) as Hp.
  destruct (setWithProperType G acc x f e w) as [w' []]; try done. specialize (IH l). by destruct (setArray G acc f e vals l).
Qed.
Lemma done_ends (r : goval * bout) : snd r <> BDiverge -> ends (snd (done r)).
Proof. destruct r as [v []]; try done. Qed.
Lemma texts_end acc f t (v : goval) vals : ends (snd (by_texts G acc f t v vals)).
Proof.
  destruct t; cbn [by_texts]; try (apply done_ends, proper_ends).
  - apply done_ends. unfold setSlice. pose proof (array_ends settable f (resolve G t) vals (replicate (length vals) (zero G (resolve G t)))) as Hp.
    destruct (setArray _ _ _ _ _ _) as [l []]; try done. apply assign_ends.
  - destruct (negb _); [done|]. destruct v; try done. pose proof (array_ends acc f t vals l) as Hp. destruct (setArray _ _ _ _ _ _) as [l' o]. by apply done_ends.
Qed.
Lemma each_end (set : D -> goval -> goval * bout) ups : (forall d w, snd (set d w) <> BDiverge) -> forall l, snd (each_file set ups l) <> BDiverge.
Proof.
  intros Hs. induction ups as [|d ups IH]; intros [|w l]; try done. cbn [each_file]. pose proof (Hs d w) as Hp.
  destruct (set d w) as [w' []]; try done. specialize (IH l). by destruct (each_file set ups l).
Qed.
Lemma set_file_ends acc d t (v : goval) : snd (set_file G acc d t v) <> BDiverge.
Proof.
  destruct t; cbn [set_file]; try done; try apply assign_ends; destruct (a_hidden acc); try done. destruct (resolve G t); try done. apply assign_ends.
Qed.
Lemma files_end t : well_founded_type G t -> exists n0, forall n, n0 <= n -> forall acc ups v, snd (setByMultipartFormFile G n acc ups t v) <> BDiverge.
Proof.
  induction 1 as [t _ IH].
  assert (forall n acc ups v, match ups with d :: _ => snd (set_file G acc d t v) <> BDiverge | [] => True end ->
    (forall e, t <> TSlice e) -> (forall k e, t <> TArray k e) -> snd (setByMultipartFormFile G (S n) acc ups t v) <> BDiverge) as Hone.
  { intros n acc ups v Hd N1 N2. destruct t; try (by destruct ups); [by destruct (N1 t)|by destruct (N2 n0 t)]. }
  destruct t as [| | | | | | | | | |e|k e| | | | | |];
    try (exists 1; intros [|n] Hn acc ups v; [lia|]; apply Hone; [destruct ups; [done|apply set_file_ends]|congruence|congruence]).
  - destruct (IH (resolve G e) (part_slice G e)) as [n0 I]. exists (S n0). intros [|n] Hn acc ups v; [lia|]. cbn [setByMultipartFormFile].
    pose proof (each_end (fun d => setByMultipartFormFile G n settable [d] (resolve G e)) ups ltac:(intros; apply I; lia) (replicate (length ups) (zero G (resolve G e)))) as Hp.
    destruct (each_file _ _ _) as [l []]; try done. apply assign_ends.
  - destruct (IH e (part_array G k e)) as [n0 I]. exists (S n0). intros [|n] Hn acc ups v; [lia|]. cbn [setByMultipartFormFile].
    destruct (negb _); [done|]. destruct v; try done.
    pose proof (each_end (fun d => setByMultipartFormFile G n acc [d] e) ups ltac:(intros; apply I; lia) l) as Hp. by destruct (each_file _ _ _).
Qed.
Lemma walk_ends (rec : access -> field -> gotype -> goval -> goval * mout) acc fs : (forall acc f t v, (f, t) ∈ fs -> ends (snd (rec acc f t v))) ->
  forall vs, ends (snd (walk_fields rec acc fs vs)).
Proof.
  induction fs as [|[f t] fs IH]; intros Hrec [|v vs]; try done. cbn [walk_fields].
  assert (forall vs, ends (snd (walk_fields rec acc fs vs))) as I by (apply IH; intros; apply Hrec; by right).
  specialize (I vs). destruct (negb _ && negb _); [by destruct (walk_fields rec acc fs vs)|].
  pose proof (Hrec (mkAccess (negb (f_exported f)) (a_addr acc)) f t v ltac:(by left)) as Hp. destruct (rec _ f t v) as [v' [b|o]]; [|done].
  destruct (walk_fields rec acc fs vs) as [vs' [b'|o']]; [done|]. exact I.
Qed.
Lemma core_ends (rec : access -> field -> gotype -> goval -> goval * mout) n s tag acc f t v : ~ skipped tag f ->
  (forall acc ups v, snd (setByMultipartFormFile G n acc ups t v) <> BDiverge) ->
  (forall acc g u w, match t with TStruct fs => (g, u) ∈ fs | TFile => (g, u) ∈ file_fields | _ => False end -> ends (snd (rec acc g u w))) ->
  ends (snd (core G H rec n s tag acc f t v)).
Proof.
  intros Hs Hf Hrec. destruct (core_step G H rec n s tag acc f t v Hs) as [fs vs Hg Ht Em|Ht Em|Hg Hns|vals Hns Hg|ups Hns Hg]; [|done|done|apply texts_end|by apply done_ends].
  cbn [snd]. destruct t; try (destruct v; discriminate); (destruct v; try discriminate); cbn [members] in Em; injection Em as <- <-; apply walk_ends; intros ? ? ? ? Hin; first [by apply elem_of_nil in Hin|by apply Hrec].
Qed.
Lemma exists_all {A} (P : A -> nat -> Prop) (l : list A) : (forall x, x ∈ l -> exists n, forall m, n <= m -> P x m) -> exists n, forall m, n <= m -> forall x, x ∈ l -> P x m.
Proof.
  induction l as [|a l IH]; intros Hl; [exists 0; intros m _ x Hx; by apply elem_of_nil in Hx|].
  destruct IH as [n1 I1]; [intros; apply Hl; by right|]. destruct (Hl a ltac:(by left)) as [n2 I2]. exists (max n1 n2). intros m Hm x Hx.
  apply elem_of_cons in Hx as [->|Hx]; [apply I2; lia|apply I1; [lia|done]].
Qed.
Lemma simple_ends n s tag acc f t v : match t with TString | TMap _ _ | TInt _ => True | _ => False end -> ends (snd (mapping G H (S (S n)) s tag acc f t v)).
Proof.
  intros Ht. destruct (skipped_dec tag f) as [Hs|Hs]; [by rewrite mapping_skipped|]. rewrite mapping_core; [|intros [e ->]; done|done].
  apply core_ends; [done| |by destruct t]. intros acc' ups v'. destruct t; try done; by destruct ups.
Qed.
Lemma mapping_ends t : well_founded_type G t -> exists n0, forall n, n0 <= n -> forall s tag acc f v, ends (snd (mapping G H n s tag acc f t v)).
Proof.
  intros Hwf. pose proof Hwf as Hwf'. induction Hwf' as [t _ IH]. destruct (files_end t Hwf) as [nf Hf].
  assert (forall n0, (forall n, n0 <= n -> forall s tag acc g u w, match t with TStruct fs => (g, u) ∈ fs | TFile => (g, u) ∈ file_fields | _ => False end -> ends (snd (mapping G H n s tag acc g u w))) ->
    ~ pointer t -> exists n0, forall n, n0 <= n -> forall s tag acc f v, ends (snd (mapping G H n s tag acc f t v))) as Hcore.
  { intros n0 Hr Hp. exists (S (max n0 nf)). intros [|n] Hn s tag acc f v; [lia|].
    destruct (skipped_dec tag f) as [Hs|Hs]; [by rewrite mapping_skipped|]. rewrite mapping_core by done.
    apply core_ends; [done|intros; apply Hf; lia|intros; apply Hr; [lia|done]]. }
  destruct t as [| | | | | | | |fs|e| | | | | | | |]; try (apply (Hcore 0); [done|by intros [? ?]]).
  - (* file headers *)
    apply (Hcore 2); [|by intros [? ?]]. intros [|[|n]] Hn s tag acc g u w Hin; [lia|lia|]. apply simple_ends.
    unfold file_fields in Hin. rewrite !elem_of_cons, elem_of_nil in Hin. by destruct Hin as [[= _ ->]|[[= _ ->]|[[= _ ->]|[]]]].
  - assert (exists n0, forall n, n0 <= n -> forall ft, ft ∈ fs -> forall s tag acc g w, ends (snd (mapping G H n s tag acc g (snd ft) w))) as [n0 Hn0].
    { apply exists_all. intros [g u] Hin. apply elem_of_list_lookup in Hin as [i Hi]. cbn [snd].
      assert (part_of G u (TStruct fs)) as Hpart by (by apply (part_field G fs i g)).
      apply (IH u Hpart). destruct Hwf as [Hwf]. by apply Hwf. }
    apply (Hcore n0); [|by intros [? ?]]. intros n Hn s tag acc g u w Hin. by apply (Hn0 n Hn (g, u) Hin).
  - assert (part_of G (resolve G e) (TPtr e)) as Hpart by constructor.
    destruct (IH _ Hpart) as [n0 I]; [destruct Hwf as [Hwf]; by apply Hwf|]. exists (S n0). intros [|n] Hn s tag acc f v; [lia|].
    destruct (skipped_dec tag f) as [Hs|Hs]; [by rewrite mapping_skipped|].
    destruct (ptr_shape v) as [[w ->]|[->|Hv]].
    + rewrite mapping_some by done. apply I. lia.
    + rewrite mapping_none by done. pose proof (I n ltac:(lia) s tag settable f (zero G (resolve G e))) as Hp.
      destruct (mapping _ _ _ _ _ _ _ _ _) as [w' [[]|]]; try done. apply done_ends, assign_ends.
    + by rewrite mapping_badptr.
Qed.
(** a type that contains itself *)
Lemma self_never s tag fs i f : self_containing G s tag fs i -> walked s tag f -> forall n acc vs v' b, vs !! i = Some (VPtr None) ->
  mapping G H n s tag acc f (TStruct fs) (VStruct vs) <> (v', MOk b).
Proof.
  intros (g & e & Hi & He & Hwg). intros Hwf n. revert f Hwf. induction (lt_wf n) as [n _ IH]. intros f Hwf acc vs v' b Hv E.
  destruct n as [|n]; [discriminate|]. pose proof Hwf as (_ & Hs & Hg). rewrite mapping_core in E; [|by intros [? ?]|done].
  pose proof (core_step G H (mapping G H n s tag) n s tag acc f (TStruct fs) (VStruct vs) Hs) as Hst. rewrite E in Hst.
  assert (struct (TStruct fs)) as Hstr by (left; by eexists).
  inversion Hst as [fs0 vs0 Hg' Ht Em E3| |Hg' Hn E3|vals Hn Hg' E3|ups Hn Hg' E3].
  - injection Em as <- <-. destruct (walk_fields _ _ _ _) as [vs' o] eqn:Ew. cbn [fst snd] in *. subst o.
    destruct (walk_ok _ _ _ _ _ _ Ew) as (_ & W & _). destruct (W i g (TPtr e) (VPtr None) Hi Hv) as (y & _ & [[Hno _]|(_ & b' & Eg & _)]); [by destruct Hwg|].
    destruct n as [|n]; [discriminate|]. pose proof Hwg as (_ & Hsg & _). rewrite mapping_none in Eg by done. rewrite He in Eg.
    destruct (mapping G H n s tag settable g (TStruct fs) (zero G (TStruct fs))) as [z o] eqn:Ez. destruct o as [b1|o]; [|discriminate].
    change (zero G (TStruct fs)) with (VStruct (map (fun ft : field * gotype => zero G (snd ft)) fs)) in Ez.
    apply (IH n ltac:(lia) g Hwg settable _ z b1) in Ez; [done|]. rewrite list_lookup_fmap, Hi. done.
  - done.
  - exfalso. destruct Hn as [Hn|Hn]; [|done]. destruct Hg as [Hg|Hg]; [congruence|]. apply Hg. left. by exists vals.
  - exfalso. destruct Hn as [Hn|Hn]; [|done]. destruct Hg as [Hg|Hg]; [congruence|]. apply Hg. right. by exists ups.
Qed.
End Ends.
