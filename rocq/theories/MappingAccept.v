(** Facts about the mapping of the Bind2 methods: which calls succeed, and that calls end. *)
From Coq Require Import ZArith NArith.
From Verif Require Import Base GoStr GoStrFacts Strconv UtilSpec StrconvFacts Header Binding BindingSpec BindingFacts BindingTop BindingMore Mapping MappingSpec MappingFacts MappingFiles MappingWalk MappingTop.

Section Accept.
Context {D : Type} (G : golib D) (H : filelib D).
Notation goval := (goval D).
Implicit Types s : setter D.

(** ** All places suit *)
Definition all_suit s tag f t (v : goval) : Prop := forall p g u w, place2 G s tag f t v p g u w -> suits G H s tag g u w.
Lemma all_suit_eq s tag f t v : all_suit s tag f t v <-> suits G H s tag f t v /\
  (walked s tag f -> forall fs vs i g u w, reach G t v (TStruct fs) (VStruct vs) -> fs !! i = Some (g, u) -> vs !! i = Some w -> all_suit s tag g u w).
Proof.
  split.
  - intros Ha. split; [apply (Ha []); apply place2_here|]. intros Hw fs vs i g u w Hr Hi Hj p h u' w' Hp.
    apply (Ha (i :: p)). by apply (place2_into _ _ _ _ _ _ fs vs i g u w).
  - intros [Ha Hb] p g u w Hp. inversion Hp as [|? ? ? fs vs i h u' w' p' ? ? ? Hw Hr Hi Hj Hp']; subst; [done|].
    by apply (Hb Hw fs vs i h u' w' Hr Hi Hj p').
Qed.
Lemma suits_same s tag f t v t' v' : same_reach G t v t' v' -> suits G H s tag f t v -> suits G H s tag f t' v'.
Proof.
  intros Hs [H1 H2]. split.
  - intros t1 b Hr. apply (H1 t1 b). by apply Hs.
  - intros Hw d i h t1 x Hr. apply (H2 Hw d i h t1 x). by apply Hs.
Qed.
Lemma all_suit_same s tag f t v t' v' : same_reach G t v t' v' -> all_suit s tag f t v -> all_suit s tag f t' v'.
Proof.
  intros Hs Ha. apply all_suit_eq in Ha as [H1 H2]. apply all_suit_eq. split; [by apply (suits_same _ _ _ t v)|].
  intros Hw fs vs i g u w Hr. apply (H2 Hw). by apply Hs.
Qed.
Lemma all_settable_eq s tag f t v : all_settable G H s tag f t v ->
  (f_exported f = false -> stirs G H s tag f t v -> exists t' x, leads G t v t' x /\ struct t') /\
  (walked s tag f -> forall fs vs i g u w, reach G t v (TStruct fs) (VStruct vs) -> fs !! i = Some (g, u) -> vs !! i = Some w -> all_settable G H s tag g u w).
Proof.
  intros Ha. split; [apply (Ha []); apply place2_here|]. intros Hw fs vs i g u w Hr Hi Hj p h u' w' Hp.
  apply (Ha (i :: p)). by apply (place2_into _ _ _ _ _ _ fs vs i g u w).
Qed.
(** below a field *)
Definition below_settable s tag f t (v : goval) : Prop :=
  walked s tag f -> forall fs vs i g u w, reach G t v (TStruct fs) (VStruct vs) -> fs !! i = Some (g, u) -> vs !! i = Some w -> all_settable G H s tag g u w.
Lemma below_settable_same s tag f t v t' v' : same_reach G t v t' v' -> below_settable s tag f t v -> below_settable s tag f t' v'.
Proof. intros Hs Ha Hw fs vs i g u w Hr. apply (Ha Hw). by apply Hs. Qed.

(** ** Outcomes *)
(** no panic *)
Definition calm (o : mout) : Prop := match o with MOk _ => True | MStop o => exists e, o = BErr e end.
Definition ends (o : mout) : Prop := o <> MStop BDiverge.
Definition succeeds (o : mout) : Prop := exists b, o = MOk b.
(** the value can be set where it has to be *)
Definition can_set (acc : access) s tag f t (v : goval) : Prop :=
  a_addr acc = true /\
  (a_hidden acc = false \/ (stirs G H s tag f t v -> f_anon f = true /\ exists t' x, leads G t v t' x /\ struct t')).
Lemma suits_skipped s tag f t v : skipped tag f -> all_suit s tag f t v.
Proof.
  intros Hs. apply all_suit_eq. split.
  - split; [|by intros (_ & ? & _)]. intros t' b _ _. split.
    + intros vals Hg. by apply given_texts_eq in Hg as (_ & ? & _).
    + intros ups Hg. by apply given_files_eq in Hg as (? & _).
  - by intros (_ & ? & _).
Qed.
Lemma suits_closed s tag f t v : ~ open_field f -> all_suit s tag f t v.
Proof.
  intros Ho. apply all_suit_eq. split; [split|].
  - intros t' b _ [? _]. done.
  - by intros (? & _).
  - by intros (? & _).
Qed.
Lemma walk_calm (rec : access -> field -> gotype -> goval -> goval * mout) acc (P : field -> gotype -> goval -> Prop) fs : forall vs,
  (forall i f t v, fs !! i = Some (f, t) -> vs !! i = Some v -> open_field f -> ends (snd (rec (sub_acc acc f) f t v)) ->
     calm (snd (rec (sub_acc acc f) f t v)) /\ (succeeds (snd (rec (sub_acc acc f) f t v)) <-> P f t v)) ->
  ends (snd (walk_fields rec acc fs vs)) ->
  calm (snd (walk_fields rec acc fs vs)) /\
  (succeeds (snd (walk_fields rec acc fs vs)) <-> forall i f t v, fs !! i = Some (f, t) -> vs !! i = Some v -> open_field f -> P f t v).
Proof.
  induction fs as [|[f t] fs IH]; intros vs Hrec He.
  { split; [done|]. split; [|by eexists]. intros _ i f t v Hi. by rewrite lookup_nil in Hi. }
  destruct vs as [|v vs].
  { split; [done|]. split; [|by eexists]. intros _ i g u w _ Hi. by rewrite lookup_nil in Hi. }
  assert (forall i g u w, fs !! i = Some (g, u) -> vs !! i = Some w -> open_field g -> ends (snd (rec (sub_acc acc g) g u w)) ->
     calm (snd (rec (sub_acc acc g) g u w)) /\ (succeeds (snd (rec (sub_acc acc g) g u w)) <-> P g u w)) as Hrest.
  { intros i g u w Hi Hj. apply (Hrec (S i)); done. }
  specialize (IH vs Hrest). pose proof (Hrec 0 f t v eq_refl eq_refl) as H0. clear Hrec Hrest.
  cbn [walk_fields] in *. destruct (negb (f_exported f) && negb (f_anon f)) eqn:Eo.
  - destruct (walk_fields rec acc fs vs) as [vs' o]. cbn [snd] in *. destruct (IH He) as [I1 I2]. split; [done|]. rewrite I2. split.
    + intros K [|i] g u w Hi Hj Hg; [|by apply (K i)]. injection Hi as -> ->. apply open_field_eq in Hg. congruence.
    + intros K i g u w Hi Hj. by apply (K (S i)).
  - assert (open_field f) as Ho by (by apply open_field_eq). specialize (H0 Ho). fold (sub_acc acc f) in *.
    destruct (rec (sub_acc acc f) f t v) as [v' o1]. cbn [snd] in H0. destruct o1 as [b|o1].
    + destruct (H0 ltac:(done)) as [_ H0']. assert (P f t v) as HP by (apply H0'; by eexists).
      destruct (walk_fields rec acc fs vs) as [vs' o]. cbn [snd] in *. destruct o as [b'|o'].
      * split; [done|]. split; [|by eexists]. intros _ [|i] g u w Hi Hj Hg; [by injection Hi as -> ->; injection Hj as ->|].
        assert (forall i f t v, fs !! i = Some (f, t) -> vs !! i = Some v -> open_field f -> P f t v) as K by (apply IH; [done|by eexists]).
        by apply (K i).
      * destruct (IH He) as [I1 I2]. split; [done|]. split; [intros [? ?]; done|]. intros K. exfalso.
        assert (succeeds (MStop o')) as [? ?]; [|done]. apply I2. intros i g u w Hi Hj. by apply (K (S i)).
    + cbn [snd] in *. destruct (H0 He) as [H1 H2]. split; [done|]. split; [by intros [? ?]|]. intros K. exfalso.
      assert (succeeds (MStop o1)) as [? ?]; [|done]. apply H2. by apply (K 0).
Qed.
(** with nothing bound *)
Lemma stirs_dec_given s tag f t v t' x : reach G t v t' x -> binds f t' -> ~ stirs G H s tag f t v -> ~ given s tag f.
Proof. intros Hr Hb Hn Hg. apply Hn. by apply (stirs_here _ _ _ _ _ _ _ t' x). Qed.
Lemma mapping_calm (Hlib : wf_lib G) (Hfiles : wf_files G H) n s tag : forall acc f t v,
  open_field f -> wf_type t -> typed G t v -> can_set acc s tag f t v -> below_settable s tag f t v ->
  ends (snd (mapping G H n s tag acc f t v)) ->
  calm (snd (mapping G H n s tag acc f t v)) /\ (succeeds (snd (mapping G H n s tag acc f t v)) <-> all_suit s tag f t v).
Proof.
  induction n as [|n IH]; intros acc f t v Ho Hw Ht Hcan Hbel He; [by destruct He|].
  destruct (skipped_dec tag f) as [Hs|Hs].
  { rewrite mapping_skipped by done. split; [done|]. split; [|by eexists]. intros _. by apply suits_skipped. }
  destruct (pointer_dec t) as [[e ->]|Hp].
  - assert (wf_type (resolve G e)) as Hwe by (by apply wf_resolve).
    inversion Ht as [| | | | |? ? Hx| |e0 E0|e0 w Hty| | | | | | |]; subst; [done| |].
    + rewrite mapping_none in * by done. specialize (IH settable f (resolve G e) (zero G (resolve G e)) Ho Hwe (zero_typed G _ Hwe)).
      assert (can_set settable s tag f (resolve G e) (zero G (resolve G e))) as Hcs by (split; [done|by left]). specialize (IH Hcs).
      assert (below_settable s tag f (resolve G e) (zero G (resolve G e))) as Hbs by (apply (below_settable_same _ _ _ (TPtr e) (VPtr None)); [apply same_none|done]).
      specialize (IH Hbs). assert (all_suit s tag f (TPtr e) (VPtr None) <-> all_suit s tag f (resolve G e) (zero G (resolve G e))) as ->.
      { split; apply all_suit_same; [|apply same_sym]; apply same_none. }
      destruct (mapping G H n s tag settable f (resolve G e) (zero G (resolve G e))) as [x o] eqn:Em. destruct o as [[]|o].
      * cbn [snd] in IH. destruct (IH ltac:(done)) as [_ I2]. destruct Hcan as [Ha Hh].
        assert (a_hidden acc = false) as Eh.
        { destruct Hh as [Hh|Hh]; [done|]. assert (stirs G H s tag f (resolve G e) (zero G (resolve G e))) as K by (by apply (set_stirs G H _ _ _ _ _ _ _ _ _ Ho Em)).
          apply (stirs_same G H _ _ _ _ _ (TPtr e) (VPtr None)) in K; [|apply same_sym, same_none].
          destruct (Hh K) as (_ & t' & y & Hl & _). inversion Hl as [? ? Hn|]; subst. destruct Hn. by eexists. }
        unfold assign. rewrite Eh, Ha. cbn. split; [done|]. split; [|by eexists]. intros _. apply I2. by eexists.
      * cbn [snd] in *. by apply IH.
      * cbn [snd] in *. by apply IH.
    + rewrite mapping_some in * by done. cbn [snd] in *.
      assert (all_suit s tag f (TPtr e) (VPtr (Some w)) <-> all_suit s tag f (resolve G e) w) as ->.
      { split; apply all_suit_same; [|apply same_sym]; apply same_some. }
      apply IH; try done; [|apply (below_settable_same _ _ _ (TPtr e) (VPtr (Some w))); [apply same_some|done]].
      destruct Hcan as [Ha Hh]. split; [done|]. cbn [a_hidden]. destruct Hh as [Hh|Hh]; [by left|right]. intros K.
      apply (stirs_same G H _ _ _ _ _ (TPtr e) (VPtr (Some w))) in K; [|apply same_sym, same_some]. destruct (Hh K) as (Han & t' & y & Hl & Hst).
      split; [done|]. exists t', y. split; [|done]. inversion Hl as [? ? Hn|]; subst; [destruct Hn; by eexists|done].
  - rewrite mapping_core in * by done. pose proof (core_step G H (mapping G H n s tag) n s tag acc f t v Hs) as Hst.
    assert (reach G t v t v) as Hr by (by apply reach_here).
    assert (a_hidden acc = false \/ (stirs G H s tag f t v -> f_anon f = true /\ struct t)) as Hcan'.
    { destruct Hcan as [_ [Hh|Hh]]; auto. right. intros K. destruct (Hh K) as (Han & t' & y & Hl & Hstr). split; [done|]. inversion Hl; subst; [done|]. destruct Hp. by eexists. }
    destruct Hcan as [Ha _].
    assert (f_anon f = false \/ ~ struct t -> given s tag f -> acc = settable) as Hacc.
    { intros Hns Hg. assert (a_hidden acc = false) as Eh.
      { destruct Hcan' as [Hh|Hh]; [done|]. assert (stirs G H s tag f t v) as K by (apply (stirs_here _ _ _ _ f t v t v); [done|by split|done]).
        destruct (Hh K) as [Han Hstr]. destruct Hns; [congruence|done]. }
      destruct acc as [h a]. cbn in Ha, Eh. by subst. }
    assert (forall (w' : Prop), f_anon f = false \/ ~ struct t -> given s tag f -> suits G H s tag f t v <-> fits_in G s tag f t v) as Hsuit.
    { intros _ Hns Hg. split; [by intros [? _]|]. intros Hf. split; [done|]. intros (_ & _ & Hwk) d i h t1 x Hr1. exfalso.
      apply reach_inv in Hr1 as [<- <-]; [|done]. assert (struct TFile) as Hst' by (right; by right). destruct Hwk; [|done]. destruct Hns; [congruence|done]. }
    assert (f_anon f = false \/ ~ struct t -> given s tag f -> all_suit s tag f t v <-> fits_in G s tag f t v) as Hall.
    { intros Hns Hg. rewrite all_suit_eq, (Hsuit True Hns Hg). split; [by intros [? _]|]. intros Hf. split; [done|].
      intros (_ & _ & Hwk) fs vs i g u w Hr1. exfalso. apply reach_inv in Hr1 as [<- <-]; [|done].
      assert (struct (TStruct fs)) as Hst' by (left; by eexists). destruct Hwk; [|done]. destruct Hns; [congruence|done]. }
    destruct Hst as [fs vs Hg Hstr Em|Hstr Em|Hg Hns|vals Hns Hg|ups Hns Hg].
    + cbn [snd] in *. assert (walked s tag f) as Hwk by (by split).
      assert (fits_in G s tag f t v) as Hfit.
      { intros t' b Hr1 [_ Hb]. apply reach_inv in Hr1 as [-> ->]; [|done]. assert (~ given s tag f) as Hng.
        { destruct Hg as [Hg|Hg]; [|done]. destruct Hb; [congruence|done]. }
        split; [intros vals Hv; destruct Hng; left; by exists vals|intros ups Hu; destruct Hng; right; by exists ups]. }
      assert (Forall (fun ft => wf_type (snd ft)) fs /\ Forall2 (fun ft v => typed G (snd ft) v) fs vs /\
        forall i g u w, fs !! i = Some (g, u) -> vs !! i = Some w -> all_settable G H s tag g u w) as (Hwfs & Htys & Hsets).
      { destruct t; try done; inversion Ht as [| | | | |? ? Hx|fs1 vs1 Hf| | | | | | | | |]; subst; cbn [members] in Em; try done; injection Em as <- <-.
        - split; [constructor|]. split; [constructor|]. intros i g u w Hi. by rewrite lookup_nil in Hi.
        - split; [|split; [apply Hfiles|]].
          + by repeat constructor.
          + intros i g u w Hi _ p h u' w' Hpl Hex. exfalso.
            assert (h = g) as ->. { inversion Hpl as [|? ? ? fs1 vs1 ? ? ? ? ? ? ? ? ? Hr1]; subst; [done|]. exfalso.
              destruct i as [|[|[|i]]]; [injection Hi as <- <-; inversion Hr1..|done]. }
            destruct i as [|[|[|i]]]; [injection Hi as <- <-; done..|done].
        - split; [|split; [done|]].
          + apply Forall_lookup. intros i [g u] Hi. by apply (wf_struct_field _ i g u Hw).
          + intros i g u w Hi Hj. by apply (Hbel Hwk _ _ i g u w ltac:(by apply reach_here)). }
      pose proof (walk_calm (mapping G H n s tag) acc (all_suit s tag) fs vs) as Hwc.
      destruct (Hwc) as [C1 C2]; [|exact He|].
      { intros i g u w Hi Hj Hog He1. pose proof (Hsets i g u w Hi Hj) as Hset. apply all_settable_eq in Hset as [S1 S2].
        apply IH; try done.
        - by apply (Forall_lookup_1 _ _ _ _ Hwfs Hi).
        - apply (Forall2_lookup_lr _ _ _ _ _ _ Htys Hi Hj).
        - split; [done|]. cbn [sub_acc a_hidden]. destruct (f_exported g) eqn:Ex; [by left|right].
          intros K. split; [destruct Hog; [congruence|done]|]. by apply S1. }
      split; [done|]. rewrite C2. rewrite all_suit_eq. unfold suits. split.
      * intros K. split; [split; [done|]|].
        -- intros _ d i h t1 x Hr1 Hi Hj. apply reach_inv in Hr1 as [<- <-]; [|done]. cbn [members] in Em. injection Em as <- <-.
           assert (open_field h) as Hoh by (destruct i as [|[|[|i]]]; [injection Hi as <- <-; by left..|done]).
           by apply (K i h t1 x Hi Hj Hoh [] h t1 x), place2_here.
        -- intros _ fs1 vs1 i g u w Hr1 Hi Hj. apply reach_inv in Hr1 as [<- <-]; [|done]. cbn [members] in Em. injection Em as <- <-.
           destruct (open_field_dec g) as [Hog|Hno]; [by apply (K i)|by apply suits_closed].
      * intros [[_ K1] K2] i g u w Hi Hj Hog. destruct (members_inside _ _ _ _ _ Em) as [(_ & -> & _)|Hin]; [by rewrite lookup_nil in Hi|].
        destruct Hin as [fs vs|d]; [by apply (K2 Hwk fs vs i)|]. apply all_suit_eq.
        assert (fits_in G s tag g u w) as Hf by (by apply (K1 Hwk d i)).
        assert (~ pointer u /\ u <> TFile /\ forall fs, u <> TStruct fs) as (N1 & N2 & N3).
        { destruct i as [|[|[|i]]]; [injection Hi as <- <-; split; [intros [? ?]; done|done]..|done]. }
        split; [split; [done|]|].
        -- intros _ d1 i1 h1 t1 x1 Hr1. apply reach_inv in Hr1 as [? _]; [|done]. congruence.
        -- intros _ fs1 vs1 i1 h1 t1 x1 Hr1. apply reach_inv in Hr1 as [? _]; [|done]. by destruct (N3 fs1).
    + exfalso. destruct Hstr as [[fs ->]|[->| ->]]; inversion Ht; subst; done.
    + split; [done|]. split; [|by eexists]. intros _. apply all_suit_eq. split; [split|].
      * intros t' b Hr1 _. split; [intros vals Hv; destruct Hg; left; by exists vals|intros ups Hu; destruct Hg; right; by exists ups].
      * intros _ d i h t1 x Hr1. apply reach_inv in Hr1 as [<- _]; [|done]. destruct Hns. right. by right.
      * intros _ fs vs i g u w Hr1. apply reach_inv in Hr1 as [<- _]; [|done]. destruct Hns. left. by eexists.
    + assert (given s tag f) as Hgv by (left; by exists vals). rewrite (Hacc Hns Hgv) in *. rewrite (Hall Hns Hgv).
      pose proof (by_texts_sound G f t v vals Ht) as Hgood. pose proof (fun a => by_texts_bears G f t v vals a (wf_type_field G Hlib t Hw) Ht) as Hb.
      destruct (by_texts G settable f t v vals) as [a o]. cbn [snd] in *. split; [by destruct o|]. split.
      * intros [b ->]. cbn in Hgood. subst b. intros t' x Hr1 _. apply reach_inv in Hr1 as [-> ->]; [|done]. split.
        -- intros vals' Hg'. rewrite (texts_unique2 _ _ _ _ _ Hg' Hg). exists a. by apply Hb.
        -- intros ups Hu. by apply texts_not_files with (ups := ups) in Hg.
      * intros Hf. destruct (Hf t v Hr ltac:(by split)) as [K _]. destruct (K vals Hg) as [a' K']. apply Hb in K'. injection K' as -> ->. by eexists.
    + assert (given s tag f) as Hgv by (right; by exists ups). rewrite (Hacc Hns Hgv) in *. rewrite (Hall Hns Hgv).
      assert (ups <> []) as Hne by (by apply given_files_eq in Hg as (_ & _ & ? & _)).
      pose proof (files_sound G n ups t v Ht Hw Hlib Hne) as Hsnd. pose proof (fun a => files_set G n ups t v a Ht Hw Hlib) as Hset.
      pose proof (fun a => files_ok G n settable ups t v a Ht Hw Hlib) as Hok.
      destruct (setByMultipartFormFile G n settable ups t v) as [a o]. cbn [snd done] in *.
      assert (o <> BDiverge) as Hnd by (intros ->; by apply He). destruct (Hsnd Hnd) as [->|[e ->]].
      * split; [done|]. split; [|by eexists]. intros _ t' x Hr1 _. apply reach_inv in Hr1 as [-> ->]; [|done]. split.
        -- intros vals Hv. by apply texts_not_files with (ups := ups) in Hv.
        -- intros ups' Hg'. rewrite (files_unique _ _ _ _ _ Hg' Hg). exists a. by apply Hok.
      * split; [cbn; eauto|]. split; [by intros [? ?]|]. intros Hf. destruct (Hf t v Hr ltac:(by split)) as [_ K].
        destruct (K ups Hg) as [a' K']. by specialize (Hset a' K' Hne Hnd).
Qed.
End Accept.
