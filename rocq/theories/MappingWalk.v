(** Facts about the mapping of the Bind2 methods: walking over a value. *)
From Coq Require Import ZArith NArith.
From Verif Require Import Base GoStr GoStrFacts Strconv UtilSpec StrconvFacts Header Binding BindingSpec BindingFacts BindingTop BindingMore Mapping MappingSpec MappingFacts MappingFiles.

Section Walk.
Context {D : Type} (G : golib D) (H : filelib D).
Notation goval := (goval D).
Implicit Types s : setter D.

(** ** Pointers *)
Lemma reach_nonptr t v t' v' : reach G t v t' v' -> ~ pointer t'.
Proof. by induction 1. Qed.
Lemma reach_inv t (v : goval) t1 v1 : reach G t v t1 v1 -> ~ pointer t -> t1 = t /\ v1 = v.
Proof. intros Hr Hn. inversion Hr; subst; [done|destruct Hn; eexists; done..]. Qed.
Lemma reach_unique t v t1 v1 t2 v2 : reach G t v t1 v1 -> reach G t v t2 v2 -> t1 = t2 /\ v1 = v2.
Proof.
  intros H1. revert t2 v2. induction H1 as [t v Hn|e v t' v' Hr IH|e t' v' Hr IH]; intros t2 v2 H2.
  - by apply reach_inv in H2 as [-> ->].
  - inversion H2 as [? ? Hn| |]; subst; [destruct Hn; by eexists|]. by apply IH.
  - inversion H2 as [? ? Hn| |]; subst; [destruct Hn; by eexists|]. by apply IH.
Qed.
Lemma reach_some e v t' v' : reach G (TPtr e) (VPtr (Some v)) t' v' <-> reach G (resolve G e) v t' v'.
Proof. split; [|by apply reach_ptr]. intros Hr. inversion Hr as [? ? Hn| |]; subst; [destruct Hn; by eexists|done]. Qed.
Lemma reach_none e t' v' : reach G (TPtr e) (VPtr None) t' v' <-> reach G (resolve G e) (zero G (resolve G e)) t' v'.
Proof. split; [|by apply reach_nil]. intros Hr. inversion Hr as [? ? Hn| |]; subst; [destruct Hn; by eexists|done]. Qed.
Lemma leads_target t v fs vs : leads G t v (TStruct fs) (VStruct vs) -> target v = VStruct vs.
Proof. intros Hl. remember (TStruct fs) as t' eqn:E. remember (VStruct vs) as v' eqn:E'. induction Hl; subst; [done|]. cbn. auto. Qed.
Lemma leads_reach t v t' v' : leads G t v t' v' -> reach G t v t' v'.
Proof. induction 1; by constructor. Qed.
Lemma pointer_dec t : {pointer t} + {~ pointer t}.
Proof. destruct t; try (right; intros [e E]; congruence). left. by eexists. Qed.
Lemma kind_struct_eq t : kind_struct t = true <-> struct t.
Proof.
  unfold struct. split.
  - destruct t; try discriminate; eauto.
  - by intros [[fs ->]|[->| ->]].
Qed.
Lemma struct_dec t : {struct t} + {~ struct t}.
Proof. destruct (kind_struct t) eqn:E; [left; by apply kind_struct_eq|right]. intros Hs. apply kind_struct_eq in Hs. congruence. Qed.

(** places and stirs through pointers *)
Definition same_reach (t : gotype) (v : goval) (t' : gotype) (v' : goval) : Prop := forall t1 v1, reach G t v t1 v1 <-> reach G t' v' t1 v1.
Lemma stirs_same s tag f t v t' v' : same_reach t v t' v' -> stirs G H s tag f t v -> stirs G H s tag f t' v'.
Proof.
  intros Hs. destruct 1 as [f t v t1 v1 Hr Hb Hg|f t v t1 v1 fs vs i g u w Hw Hr Hi Hf Hv Hst].
  - apply (stirs_here _ _ _ _ _ _ _ t1 v1); [by apply Hs|done|done].
  - apply (stirs_below _ _ _ _ _ _ _ t1 v1 fs vs i g u w); [done|by apply Hs|done..].
Qed.
Lemma same_some e v : same_reach (TPtr e) (VPtr (Some v)) (resolve G e) v.
Proof. intros t1 v1. apply reach_some. Qed.
Lemma same_none e : same_reach (TPtr e) (VPtr None) (resolve G e) (zero G (resolve G e)).
Proof. intros t1 v1. apply reach_none. Qed.
Lemma same_sym t v t' v' : same_reach t v t' v' -> same_reach t' v' t v.
Proof. intros Hs t1 v1. by rewrite (Hs t1 v1). Qed.
Lemma stirs_not_skipped s tag f t v : stirs G H s tag f t v -> ~ skipped tag f.
Proof.
  destruct 1 as [f t v t1 v1 Hr Hb Hg|f t v t1 v1 fs vs i g u w Hw Hr Hi Hf Hv Hst].
  - destruct Hg as [[vals Hg]|[ups Hg]]; [by apply given_texts_eq in Hg as (_ & ? & _)|by apply given_files_eq in Hg as (? & _)].
  - by destruct Hw as (_ & ? & _).
Qed.
Lemma stirs_open s tag f t v : stirs G H s tag f t v -> open_field f.
Proof. by destruct 1 as [f t v t1 v1 Hr [Hb _] Hg|f t v t1 v1 fs vs i g u w [Hw _] Hr Hi Hf Hv Hst]. Qed.

(** ** The loop *)
Notation rec_t := (access -> field -> gotype -> goval -> goval * mout).
Definition sub_acc (acc : access) (f : field) : access := mkAccess (negb (f_exported f)) (a_addr acc).
Lemma walk_ok (rec : rec_t) acc fs : forall vs vs' b, walk_fields rec acc fs vs = (vs', MOk b) ->
  length vs' = length vs /\
  (forall i f t v, fs !! i = Some (f, t) -> vs !! i = Some v ->
     exists v', vs' !! i = Some v' /\
       ((~ open_field f /\ v' = v) \/ (open_field f /\ exists b', rec (sub_acc acc f) f t v = (v', MOk b') /\ (b' = true -> b = true)))) /\
  (b = true -> exists i f t v v', fs !! i = Some (f, t) /\ vs !! i = Some v /\ open_field f /\ rec (sub_acc acc f) f t v = (v', MOk true)).
Proof.
  induction fs as [|[f t] fs IH]; intros vs vs' b E.
  { injection E as <- <-. split; [done|]. split; [|done]. intros i f t v Hi. by rewrite lookup_nil in Hi. }
  destruct vs as [|v vs]; [injection E as <- <-; split; [done|]; split; [|done]; intros i g u w _ Hi; by rewrite lookup_nil in Hi|].
  cbn [walk_fields] in E. destruct (negb (f_exported f) && negb (f_anon f)) eqn:Eo.
  - destruct (walk_fields rec acc fs vs) as [vs'' o] eqn:Er. injection E as <- ->.
    destruct (IH vs vs'' b Er) as (H1 & H2 & H3). split; [cbn; lia|]. split.
    + intros [|i] g u w Hi Hj; cbn in *.
      * injection Hi as -> ->. injection Hj as ->. exists w. split; [done|]. left. split; [|done].
        intros Ho. apply open_field_eq in Ho. congruence.
      * by apply (H2 i).
    + intros Hb. destruct (H3 Hb) as (i & g & u & w & w' & K). exists (S i), g, u, w, w'. exact K.
  - assert (open_field f) as Ho by (by apply open_field_eq). fold (sub_acc acc f) in E.
    destruct (rec (sub_acc acc f) f t v) as [v' o] eqn:Es. destruct o as [b1|o]; [|discriminate].
    destruct (walk_fields rec acc fs vs) as [vs'' o] eqn:Er. destruct o as [b2|o]; [|discriminate]. injection E as <- <-.
    destruct (IH vs vs'' b2 Er) as (H1 & H2 & H3). split; [cbn; lia|]. split.
    + intros [|i] g u w Hi Hj; cbn in *.
      * injection Hi as -> ->. injection Hj as ->. exists v'. split; [done|]. right. split; [done|]. exists b1.
        split; [done|]. by intros ->.
      * destruct (H2 i g u w Hi Hj) as (w' & Hw' & [K|(Hg & b' & K1 & K2)]); [eauto|]. exists w'. split; [done|]. right. split; [done|].
        exists b'. split; [done|]. intros Hb'. rewrite K2 by done. by rewrite orb_true_r.
    + intros Hb. apply orb_true_iff in Hb as [->| ->].
      * exists 0, f, t, v, v'. done.
      * destruct (H3 eq_refl) as (i & g & u & w & w' & K). exists (S i), g, u, w, w'. exact K.
Qed.
Lemma walk_any (rec : rec_t) acc fs : forall vs vs' o, walk_fields rec acc fs vs = (vs', o) ->
  length vs' = length vs /\
  forall i f t v, fs !! i = Some (f, t) -> vs !! i = Some v ->
     exists v', vs' !! i = Some v' /\ (v' = v \/ (open_field f /\ v' = fst (rec (sub_acc acc f) f t v))).
Proof.
  induction fs as [|[f t] fs IH]; intros vs vs' o E.
  { injection E as <- <-. split; [done|]. intros i f t v Hi. by rewrite lookup_nil in Hi. }
  destruct vs as [|v vs]; [injection E as <- <-; split; [done|]; intros i g u w _ Hi; by rewrite lookup_nil in Hi|].
  cbn [walk_fields] in E. destruct (negb (f_exported f) && negb (f_anon f)) eqn:Eo.
  - destruct (walk_fields rec acc fs vs) as [vs'' o'] eqn:Er. injection E as <- ->.
    destruct (IH vs vs'' o Er) as (H1 & H2). split; [cbn; lia|].
    intros [|i] g u w Hi Hj; cbn in *; [|by apply (H2 i)]. injection Hi as -> ->. injection Hj as ->. exists w. split; [done|]. by left.
  - assert (open_field f) as Ho by (by apply open_field_eq). fold (sub_acc acc f) in E.
    destruct (rec (sub_acc acc f) f t v) as [v' o1] eqn:Es. destruct o1 as [b1|o1].
    + destruct (walk_fields rec acc fs vs) as [vs'' o'] eqn:Er. injection E as <- _.
      destruct (IH vs vs'' o' Er) as (H1 & H2). split; [cbn; lia|].
      intros [|i] g u w Hi Hj; cbn in *; [|by apply (H2 i)]. injection Hi as -> ->. injection Hj as ->. exists v'. split; [done|].
      right. by rewrite Es.
    + injection E as <- _. split; [done|]. intros [|i] g u w Hi Hj; cbn in *; [|by exists w; split; [|left]].
      injection Hi as -> ->. injection Hj as ->. exists v'. split; [done|]. right. by rewrite Es.
Qed.
Lemma walk_false (rec : rec_t) acc fs : forall vs vs', (forall acc f t v v', rec acc f t v = (v', MOk false) -> v' = v) ->
  walk_fields rec acc fs vs = (vs', MOk false) -> vs' = vs.
Proof.
  induction fs as [|[f t] fs IH]; intros vs vs' Hrec E; [by injection E as <-|].
  destruct vs as [|v vs]; [by injection E as <-|]. cbn [walk_fields] in E. destruct (negb _ && negb _).
  - destruct (walk_fields rec acc fs vs) as [vs'' o] eqn:Er. injection E as <- ->. f_equal. by apply IH.
  - destruct (rec _ f t v) as [v' o] eqn:Es. destruct o as [b1|o]; [|discriminate].
    destruct (walk_fields rec acc fs vs) as [vs'' o] eqn:Er. destruct o as [b2|o]; [|discriminate].
    injection E as <- Eb. apply orb_false_iff in Eb as [-> ->]. apply Hrec in Es as ->. f_equal. by apply IH.
Qed.

(** ** One call *)
Definition core (rec : rec_t) n s tag acc f t (v : goval) : goval * mout :=
  match (if kind_struct t && f_anon f then (v, MOk false) else tryToSetValue G n s tag acc f t v) with
  | (v, MOk false) =>
      if kind_struct t then
        match members H t v with
        | Some (fs, vs) => let '(vs', o) := walk_fields rec acc fs vs in (with_members H t v vs', o)
        | None => (v, MStop (BPanic type_panic))
        end
      else (v, MOk false)
  | r => r
  end.
Lemma mapping_skipped n s tag acc f t v : skipped tag f -> mapping G H (S n) s tag acc f t v = (v, MOk false).
Proof. intros Hs. cbn [mapping]. apply skipped_eq in Hs. by rewrite Hs. Qed.
Lemma mapping_core n s tag acc f t v : ~ pointer t -> ~ skipped tag f ->
  mapping G H (S n) s tag acc f t v = core (mapping G H n s tag) n s tag acc f t v.
Proof.
  intros Hp Hs. cbn [mapping]. destruct (seqb (tag_get (f_tag f) tag) (L "-")) eqn:E; [by apply skipped_eq in E|].
  destruct t; try reflexivity. destruct Hp. by eexists.
Qed.
Lemma mapping_none n s tag acc f e : ~ skipped tag f ->
  mapping G H (S n) s tag acc f (TPtr e) (VPtr None) =
    match mapping G H n s tag settable f (resolve G e) (zero G (resolve G e)) with
    | (w, MOk true) => done (assign acc (VPtr None) (VPtr (Some w)))
    | (_, o) => (VPtr None, o)
    end.
Proof.
  intros Hs. cbn [mapping]. destruct (seqb (tag_get (f_tag f) tag) (L "-")) eqn:E; [by apply skipped_eq in E|].
  destruct (mapping _ _ _ _ _ _ _ _ _) as [w [[]|]]; reflexivity.
Qed.
Lemma mapping_some n s tag acc f e w : ~ skipped tag f ->
  mapping G H (S n) s tag acc f (TPtr e) (VPtr (Some w)) =
    (VPtr (Some (fst (mapping G H n s tag (mkAccess (a_hidden acc) true) f (resolve G e) w))),
     snd (mapping G H n s tag (mkAccess (a_hidden acc) true) f (resolve G e) w)).
Proof.
  intros Hs. cbn [mapping]. destruct (seqb (tag_get (f_tag f) tag) (L "-")) eqn:E; [by apply skipped_eq in E|].
  by destruct (mapping _ _ _ _ _ _ _ _ _).
Qed.
Lemma mapping_badptr n s tag acc f e (v : goval) : ~ skipped tag f -> (forall p, v <> VPtr p) ->
  mapping G H (S n) s tag acc f (TPtr e) v = (v, MStop (BPanic type_panic)).
Proof.
  intros Hs Hv. cbn [mapping]. destruct (seqb (tag_get (f_tag f) tag) (L "-")) eqn:E; [by apply skipped_eq in E|].
  destruct v; try reflexivity. by destruct (Hv p).
Qed.

(** the cases of [core] *)
Inductive step (rec : rec_t) n s tag acc f t (v : goval) : goval * mout -> Prop :=
  | step_walk fs vs : (f_anon f = true \/ ~ given s tag f) -> struct t -> members H t v = Some (fs, vs) ->
      step rec n s tag acc f t v (with_members H t v (fst (walk_fields rec acc fs vs)), snd (walk_fields rec acc fs vs))
  | step_shape : struct t -> members H t v = None -> step rec n s tag acc f t v (v, MStop (BPanic type_panic))
  | step_leaf : ~ given s tag f -> ~ struct t -> step rec n s tag acc f t v (v, MOk false)
  | step_texts vals : (f_anon f = false \/ ~ struct t) -> given_texts s tag f vals -> step rec n s tag acc f t v (by_texts G acc f t v vals)
  | step_files ups : (f_anon f = false \/ ~ struct t) -> given_files s tag f ups ->
      step rec n s tag acc f t v (done (setByMultipartFormFile G n acc ups t v)).
Lemma core_step rec n s tag acc f t v : ~ skipped tag f -> step rec n s tag acc f t v (core rec n s tag acc f t v).
Proof.
  intros Hs. unfold core.
  assert (struct t -> (f_anon f = true \/ ~ given s tag f) -> step rec n s tag acc f t v
    match members H t v with
    | Some (fs, vs) => let '(vs', o) := walk_fields rec acc fs vs in (with_members H t v vs', o)
    | None => (v, MStop (BPanic type_panic))
    end) as Hwalk.
  { intros Ht Hg. destruct (members H t v) as [[fs vs]|] eqn:Em; [|by apply step_shape].
    pose proof (step_walk rec n s tag acc f t v fs vs Hg Ht Em) as K. by destruct (walk_fields rec acc fs vs). }
  destruct (kind_struct t) eqn:Ek.
  - apply kind_struct_eq in Ek. destruct (f_anon f) eqn:Ea; cbn [andb]; [by apply Hwalk; [|left]|].
    destruct (try2_cases G n s tag acc f t v Hs) as [[Hg ->]|[(vals & Hg & ->)|(ups & Hg & ->)]].
    + by apply Hwalk; [|right].
    + pose proof (step_texts rec n s tag acc f t v vals ltac:(by left) Hg) as K.
      destruct (by_texts G acc f t v vals) as [a o] eqn:Eb. destruct o as [b|]; [|done].
      apply by_texts_any in Eb as [-> _]. done.
    + pose proof (step_files rec n s tag acc f t v ups ltac:(by left) Hg) as K.
      destruct (done (setByMultipartFormFile G n acc ups t v)) as [a o] eqn:Eb. destruct o as [b|]; [|done].
      apply done_ok in Eb as [-> _]. done.
  - assert (~ struct t) as Hn by (intros K; apply kind_struct_eq in K; congruence). cbn [andb].
    destruct (try2_cases G n s tag acc f t v Hs) as [[Hg ->]|[(vals & Hg & ->)|(ups & Hg & ->)]].
    + by apply step_leaf.
    + pose proof (step_texts rec n s tag acc f t v vals ltac:(by right) Hg) as K.
      destruct (by_texts G acc f t v vals) as [a o] eqn:Eb. destruct o as [[]|]; [done| |done].
      by apply by_texts_any in Eb as [? _].
    + pose proof (step_files rec n s tag acc f t v ups ltac:(by right) Hg) as K.
      destruct (done (setByMultipartFormFile G n acc ups t v)) as [a o] eqn:Eb. destruct o as [[]|]; [done| |done].
      by apply done_ok in Eb as [? _].
Qed.
Lemma members_inside t v fs vs : members H t v = Some (fs, vs) -> (t = TTime /\ fs = [] /\ vs = []) \/ inside H t v fs vs.
Proof.
  destruct t; cbn [members]; try done; destruct v; try done; intros [= <- <-]; [by left|right; constructor..].
Qed.
Lemma inside_members t v fs vs : inside H t v fs vs -> members H t v = Some (fs, vs).
Proof. by destruct 1. Qed.
Lemma inside_struct_kind t v fs vs : inside H t v fs vs -> struct t.
Proof. unfold struct. destruct 1; eauto. Qed.
Lemma with_members_same (Hc : forall d, x_close H (x_open H d) = d) t v fs vs : members H t v = Some (fs, vs) -> with_members H t v vs = v.
Proof.
  destruct t; cbn [members with_members]; try done; destruct v; try done; intros [= <- <-]; [|done]. by rewrite Hc.
Qed.

(** ** Nothing set *)
Lemma ptr_shape (v : goval) : (exists w, v = VPtr (Some w)) \/ v = VPtr None \/ (forall p, v <> VPtr p).
Proof. destruct v as [| | | | |[w|]| | | | |]; eauto; right; right; congruence. Qed.
Lemma unset_same (Hc : forall d, x_close H (x_open H d) = d) n s tag : forall acc f t v v',
  mapping G H n s tag acc f t v = (v', MOk false) -> v' = v.
Proof.
  induction n as [|n IH]; intros acc f t v v' E; [discriminate|].
  destruct (skipped_dec tag f) as [Hs|Hs]; [rewrite mapping_skipped in E by done; by injection E as <-|].
  destruct (pointer_dec t) as [[e ->]|Hp].
  - destruct (ptr_shape v) as [[w ->]|[->|Hv]].
    + rewrite mapping_some in E by done. destruct (mapping _ _ _ _ _ _ _ _ _) as [w' o] eqn:Em. injection E as <- E.
      cbn [fst snd] in *. subst o. by apply IH in Em as ->.
    + rewrite mapping_none in E by done. destruct (mapping _ _ _ _ _ _ _ _ _) as [w' [[]|]] eqn:Em; [|by injection E as <-|discriminate].
      by apply done_ok in E as [? _].
    + by rewrite mapping_badptr in E.
  - rewrite mapping_core in E by done. pose proof (core_step (mapping G H n s tag) n s tag acc f t v Hs) as Hst. rewrite E in Hst.
    inversion Hst as [fs vs Hg Ht Em E1| |? ? E1|vals ? ? E1|ups ? ? E1].
    + destruct (walk_fields _ _ _ _) as [vs' o] eqn:Ew. cbn [fst snd] in *. subst o. apply walk_false in Ew; [|exact IH].
      subst vs'. by apply (with_members_same Hc t v fs vs).
    + done.
    + by apply by_texts_any in E1 as [? _].
    + by apply done_ok in E1 as [? _].
Qed.

(** ** Set iff bound *)
Lemma set_stirs n s tag : forall acc f t v v' b, open_field f -> mapping G H n s tag acc f t v = (v', MOk b) ->
  b = true <-> stirs G H s tag f t v.
Proof.
  induction n as [|n IH]; intros acc f t v v' b Ho E; [discriminate|].
  destruct (skipped_dec tag f) as [Hs|Hs].
  { rewrite mapping_skipped in E by done. injection E as _ <-. split; [done|]. intros Hst. by apply stirs_not_skipped in Hst. }
  destruct (pointer_dec t) as [[e ->]|Hp].
  - destruct (ptr_shape v) as [[w ->]|[->|Hv]].
    + rewrite mapping_some in E by done. destruct (mapping _ _ _ _ _ _ _ _ _) as [w' o] eqn:Em. injection E as <- E.
      cbn [fst snd] in *. subst o. rewrite (IH _ _ _ _ _ _ Ho Em).
      split; apply stirs_same; [apply same_sym|]; apply same_some.
    + rewrite mapping_none in E by done. destruct (mapping _ _ _ _ _ _ _ _ _) as [w' [b'|]] eqn:Em; [|discriminate].
      assert (b = b') as ->. { destruct b'; [by apply done_ok in E as [-> _]|by injection E as _ <-]. }
      rewrite (IH _ _ _ _ _ _ Ho Em). split; apply stirs_same; [apply same_sym|]; apply same_none.
    + by rewrite mapping_badptr in E.
  - rewrite mapping_core in E by done. pose proof (core_step (mapping G H n s tag) n s tag acc f t v Hs) as Hst. rewrite E in Hst.
    assert (reach G t v t v) as Hr by (by apply reach_here).
    inversion Hst as [fs vs Hg Ht Em E1| |Hg Hn E1|vals Hn Hg E1|ups Hn Hg E1].
    + destruct (walk_fields _ _ _ _) as [vs' o] eqn:Ew. cbn [fst snd] in *. subst o. destruct (walk_ok _ _ _ _ _ _ Ew) as (_ & W1 & W2). split.
      * intros Hb. destruct (W2 Hb) as (i & g & u & w & w' & Hi & Hj & Hog & Eg).
        destruct (members_inside _ _ _ _ Em) as [(_ & -> & _)|Hin]; [by rewrite lookup_nil in Hi|].
        apply (stirs_below _ _ _ _ f t v t v fs vs i g u w); try done. by apply (IH _ _ _ _ _ _ Hog Eg).
      * intros Hstir. inversion Hstir as [? ? ? t1 v1 Hr1 [_ Hb] Hg1|? ? ? t1 v1 fs1 vs1 i g u w Hw Hr1 Hin Hi Hj Hst']; subst.
        -- apply reach_inv in Hr1 as [-> ->]; [|done]. exfalso. destruct Hb as [Hb|Hb]; [|done]. destruct Hg as [Hg|Hg]; [congruence|done].
        -- apply reach_inv in Hr1 as [-> ->]; [|done]. apply inside_members in Hin. rewrite Em in Hin. injection Hin as <- <-.
           destruct (W1 i g u w Hi Hj) as (w' & _ & [[Hno _]|(Hog & b' & Eg & Hb')]); [by apply stirs_open in Hst'|].
           apply Hb'. by apply (IH _ _ _ _ _ _ Hog Eg).
    + split; [done|]. intros Hstir. inversion Hstir as [? ? ? t1 v1 Hr1 [_ Hb] Hg1|? ? ? t1 v1 fs1 vs1 i g u w Hw Hr1 Hin Hi Hj Hst']; subst; [done|].
      apply reach_inv in Hr1 as [-> ->]; [|done]. exfalso. apply Hn. by apply inside_struct_kind in Hin.
    + apply by_texts_any in E1 as [-> _]. split; [intros _|done]. apply (stirs_here _ _ _ _ f t v t v); [done|by split|]. left. by exists vals.
    + apply done_ok in E1 as [-> _]. split; [intros _|done]. apply (stirs_here _ _ _ _ f t v t v); [done|by split|]. right. by exists ups.
Qed.

(** ** Pointers followed *)
Lemma mapping_reach n s tag : forall acc f t v v' b, ~ skipped tag f -> mapping G H n s tag acc f t v = (v', MOk b) ->
  exists t' w, reach G t v t' w.
Proof.
  induction n as [|n IH]; intros acc f t v v' b Hs E; [discriminate|]. destruct (pointer_dec t) as [[e ->]|Hp]; [|eexists _, _; by apply reach_here].
  destruct (ptr_shape v) as [[w ->]|[->|Hv]].
  - rewrite mapping_some in E by done. destruct (mapping _ _ _ _ _ _ _ _ _) as [w' o] eqn:Em. injection E as <- E.
    cbn [fst snd] in *. subst o. destruct (IH _ _ _ _ _ _ Hs Em) as (t' & x & Hr). exists t', x. by apply reach_ptr.
  - rewrite mapping_none in E by done. destruct (mapping _ _ _ _ _ _ _ _ _) as [w' [b'|]] eqn:Em; [|discriminate].
    destruct (IH _ _ _ _ _ _ Hs Em) as (t' & x & Hr). exists t', x. by apply reach_nil.
  - by rewrite mapping_badptr in E.
Qed.
Lemma chain_ok s tag f t v t' w : reach G t v t' w -> ~ skipped tag f -> forall n acc v' b, mapping G H n s tag acc f t v = (v', MOk b) ->
  exists n' acc' w', mapping G H (S n') s tag acc' f t' w = (w', MOk b) /\ (b = true -> leads G t v' t' w').
Proof.
  induction 1 as [t v Hn|e v t' v' Hr IH|e t' v' Hr IH]; intros Hs n acc v1 b E; (destruct n as [|n]; [discriminate|]).
  - exists n, acc, v1. split; [done|]. intros _. by apply leads_here.
  - rewrite mapping_some in E by done. destruct (mapping _ _ _ _ _ _ _ _ _) as [w' o] eqn:Em. injection E as <- E.
    cbn [fst snd] in *. subst o. destruct (IH Hs _ _ _ _ Em) as (n' & acc' & w1 & E1 & E2). exists n', acc', w1. split; [done|].
    intros Hb. apply leads_ptr. by apply E2.
  - rewrite mapping_none in E by done. destruct (mapping _ _ _ _ _ _ _ _ _) as [w' [b'|]] eqn:Em; [|discriminate].
    destruct (IH Hs _ _ _ _ Em) as (n' & acc' & w1 & E1 & E2). exists n', acc', w1. destruct b'.
    + apply done_ok in E as [-> E]. apply assign_ok in E as [-> _]. split; [done|]. intros Hb. apply leads_ptr. by apply E2.
    + injection E as <- <-. by split.
Qed.

(** ** Places *)
Lemma place_here_only s tag f t v p g u w : place2 G s tag f t v p g u w -> ~ open_field f -> p = [] /\ g = f /\ u = t /\ w = v.
Proof. intros Hp Ho. inversion Hp as [|? ? ? ? ? ? ? ? ? ? ? ? ? [Hw _]]; subst; [done|]. by destruct Ho. Qed.
Lemma place_value2 s tag f t v p g u w : place2 G s tag f t v p g u w -> value_at2 v p = Some w \/ value_at2 v p = None.
Proof.
  induction 1 as [f t v|f t v fs vs i g u w p h u' w' Hw Hr Hi Hj Hp IH]; [by left|]. cbn.
  remember (TStruct fs) as t1 eqn:Et. remember (VStruct vs) as v1 eqn:Ev. clear Hw. induction Hr; subst.
  - cbn. rewrite Hj. exact IH.
  - cbn. auto.
  - by right.
Qed.
(** what a successful call does at a place *)
Lemma place_ok (Hc : forall d, x_close H (x_open H d) = d) s tag f t v p g u w :
  place2 G s tag f t v p g u w -> open_field f -> forall n acc v' b,
  mapping G H n s tag acc f t v = (v', MOk b) ->
  exists w' b', (b' = true -> b = true /\ value_at2 v' p = Some w') /\
    (b' = false -> w' = w /\ (value_at2 v' p = Some w \/ value_at2 v' p = None) /\ (value_at2 v p <> None -> value_at2 v' p = Some w)) /\
    ((~ open_field g /\ b' = false) \/ (open_field g /\ exists n' acc', mapping G H n' s tag acc' g u w = (w', MOk b'))).
Proof.
  intros Hp0. pose proof (place_value2 _ _ _ _ _ _ _ _ _ Hp0) as Hv0. revert Hv0.
  induction Hp0 as [f t v|f t v fs vs i g u w p h u' w' Hw Hr Hi Hj Hp IH]; intros Hv0 Ho n acc v' b E.
  - exists v', b. split; [done|]. split; [|right; split; [done|]; by exists n, acc]. intros ->. apply unset_same in E as ->; [|done]. auto.
  - destruct b.
    2:{ (* nothing at all was set *)
      pose proof (unset_same Hc _ _ _ _ _ _ _ _ E) as ->.
      assert (~ stirs G H s tag f t v) as Hns by (intros Hst; by apply (set_stirs _ _ _ _ _ _ _ _ _ Ho E) in Hst).
      assert (value_at2 v (i :: p) <> None -> value_at2 v (i :: p) = Some w') as Hsome by (intros Hx; by destruct Hv0).
      destruct Hw as (_ & Hs & Hg). destruct (chain_ok _ _ _ _ _ _ _ Hr Hs _ _ _ _ E) as (n' & acc' & x & E1 & _).
      assert (~ pointer (TStruct fs)) as Hnp by (intros [? ?]; congruence). rewrite mapping_core in E1 by done.
      pose proof (core_step (mapping G H n' s tag) n' s tag acc' f (TStruct fs) (VStruct vs) Hs) as Hst. rewrite E1 in Hst.
      assert (struct (TStruct fs)) as Hstr by (left; by eexists).
      inversion Hst as [fs0 vs0 Hg' Ht Em E3| |Hg' Hn E3|vals Hn Hg' E3|ups Hn Hg' E3].
      - injection Em as <- <-. destruct (walk_fields _ _ _ _) as [vs' o] eqn:Ew. cbn [fst snd with_members] in *. subst o x.
        destruct (walk_ok _ _ _ _ _ _ Ew) as (_ & W1 & _). destruct (W1 i g u w Hi Hj) as (y & Hy & [[Hno ->]|(Hog & b' & Eg & Hb')]).
        + destruct (place_here_only _ _ _ _ _ _ _ _ _ Hp Hno) as (-> & -> & -> & ->). exists w, false. split; [done|].
          split; [|by left]. intros _. auto.
        + destruct b'; [by discriminate Hb'|].
          destruct (IH (place_value2 _ _ _ _ _ _ _ _ _ Hp) Hog _ _ _ _ Eg) as (z & b1 & K1 & K2 & K3).
          destruct b1; [by destruct (K1 eq_refl)|]. destruct (K2 eq_refl) as (-> & _). exists w', false. split; [done|]. split; [|done]. auto.
      - by destruct Hn.
      - by apply done_ok in E3 as [? _].
      - by apply done_ok in E3 as [? _]. }
    destruct Hw as (_ & Hs & Hg).
    destruct (chain_ok _ _ _ _ _ _ _ Hr Hs _ _ _ _ E) as (n' & acc' & x & E1 & E2). specialize (E2 eq_refl).
    assert (~ pointer (TStruct fs)) as Hnp by (intros [? ?]; congruence). rewrite mapping_core in E1 by done.
    pose proof (core_step (mapping G H n' s tag) n' s tag acc' f (TStruct fs) (VStruct vs) Hs) as Hst. rewrite E1 in Hst.
    assert (struct (TStruct fs)) as Hstr by (left; by eexists).
    inversion Hst as [fs0 vs0 Hg' Ht Em E3| |Hg' Hn E3|vals Hn Hg' E3|ups Hn Hg' E3].
    + injection Em as <- <-. destruct (walk_fields _ _ _ _) as [vs' o] eqn:Ew. cbn [fst snd with_members] in *. subst o x.
      destruct (walk_ok _ _ _ _ _ _ Ew) as (_ & W1 & _). destruct (W1 i g u w Hi Hj) as (y & Hy & [[Hno ->]|(Hog & b' & Eg & Hb')]).
      * destruct (place_here_only _ _ _ _ _ _ _ _ _ Hp Hno) as (-> & -> & -> & ->). exists w, false. split; [done|].
        split; [|by left]. intros _. cbn. rewrite (leads_target _ _ _ _ E2), Hy. auto.
      * destruct (IH (place_value2 _ _ _ _ _ _ _ _ _ Hp) Hog _ _ _ _ Eg) as (z & b1 & K1 & K2 & K3). exists z, b1.
        assert (value_at2 v' (i :: p) = value_at2 y p) as Hval by (cbn; by rewrite (leads_target _ _ _ _ E2), Hy).
        rewrite Hval. split; [|split].
        -- intros Hb1. destruct (K1 Hb1). done.
        -- intros Hb1. destruct (K2 Hb1) as (-> & L1 & L2). split; [done|]. split; [done|]. intros Hne. apply L2.
           intros Hnone. apply Hne. cbn. clear -Hr Hj Hnone. remember (TStruct fs) as t1 eqn:Et. remember (VStruct vs) as v1 eqn:Ev.
           induction Hr; subst; cbn; [by rewrite Hj|auto|done].
        -- exact K3.
    + exfalso. destruct Hn as [Hn|Hn]; [|done]. destruct Hg as [Hg|Hg]; [congruence|]. apply Hg. left. by exists vals.
    + exfalso. destruct Hn as [Hn|Hn]; [|done]. destruct Hg as [Hg|Hg]; [congruence|]. apply Hg. right. by exists ups.
Qed.
End Walk.
