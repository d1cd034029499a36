(** Facts about the mapping of the Bind2 methods: what a bound field holds. *)
From Coq Require Import ZArith NArith.
From Verif Require Import Base GoStr GoStrFacts Strconv UtilSpec StrconvFacts Header Binding BindingSpec BindingFacts BindingTop BindingMore Mapping MappingSpec MappingFacts.

Section Facts.
Context {D : Type} (G : golib D) (H : filelib D).
Notation goval := (goval D).

Lemma done_ok (r : goval * bout) a b : done r = (a, MOk b) -> b = true /\ r = (a, BOk).
Proof. destruct r as [v o]. cbn. destruct o; try discriminate. by intros [= -> <-]. Qed.
Lemma by_texts_any acc f t (v : goval) vals a b : by_texts G acc f t v vals = (a, MOk b) ->
  b = true /\ by_texts G settable f t v vals = (a, MOk true).
Proof.
  assert (forall t, done (setWithProperType G acc (hd [] vals) f t v) = (a, MOk b) ->
    b = true /\ done (setWithProperType G settable (hd [] vals) f t v) = (a, MOk true)) as Hone.
  { intros t' E. apply done_ok in E as [-> E]. split; [done|]. pose proof (proper_settable _ _ _ _ _ _ _ E). subst acc. by rewrite E. }
  destruct t; try apply Hone; cbn [by_texts].
  - unfold setSlice. destruct (setArray _ _ _ _ _ _) as [l o]. destruct o; try discriminate. intros E.
    apply done_ok in E as [-> E]. split; [reflexivity|]. by apply assign_ok in E as [-> ->].
  - destruct (negb _); [discriminate|]. destruct v; try discriminate.
    destruct (setArray G acc _ _ _ _) as [l' o] eqn:Es. intros E. apply done_ok in E as [-> E]. injection E as <- ->. split; [done|].
    destruct vals as [|x vals]; [cbn in Es |- *; by injection Es as <-|].
    assert (acc = settable) as -> by (by eapply (array_settable _ _ _ _ (x :: vals)); [|exact Es]). by rewrite Es.
Qed.

(** ** Files *)
Lemma each_ok (set : D -> goval -> goval * bout) files : forall l l', length files = length l ->
  each_file set files l = (l', BOk) <-> Forall2 (fun dw a => set (fst dw) (snd dw) = (a, BOk)) (zip files l) l'.
Proof.
  induction files as [|d files IH]; intros [|w l] l' Hl; try done; cbn [each_file zip_with].
  - split; [intros [= <-]; constructor|]. intros Hf. by inversion Hf.
  - destruct (set d w) as [w' o] eqn:Es. pose proof (fun l' => IH l l' ltac:(cbn in Hl; lia)) as IH'.
    destruct (each_file set files l) as [l'' o']. split.
    + destruct o; try discriminate. intros [= <- ->]. constructor; [by cbn|by apply IH'].
    + intros Hf. inversion Hf as [|? a ? l0 H1 H2]; subst. cbn [fst snd] in H1. rewrite Es in H1. injection H1 as -> ->.
      apply IH' in H2. injection H2 as -> ->. done.
Qed.
Lemma Forall2_zip_l {A B C} (P : A -> C -> Prop) (l : list A) (k : list B) m : length l = length k ->
  Forall2 (fun ab c => P (fst ab) c) (zip l k) m <-> Forall2 P l m.
Proof.
  revert k m. induction l as [|a l IH]; intros [|b k] m Hl; try done; cbn [zip_with].
  - split; intros Hf; inversion Hf; constructor.
  - split; intros Hf; inversion Hf; subst; constructor; try done; by apply (IH k); [cbn in Hl; lia|].
Qed.
Lemma set_file_ok acc d t (v a : goval) ups : set_file G acc d t v = (a, BOk) -> stores G t (d :: ups) a.
Proof.
  destruct t; cbn [set_file]; try done.
  - by destruct (a_hidden acc).
  - intros E. apply assign_ok in E as [-> _]. constructor.
  - by destruct (a_hidden acc).
  - destruct (a_hidden acc); [done|]. destruct (resolve G t) eqn:Er; try done. intros E. apply assign_ok in E as [-> _]. by constructor.
Qed.
Lemma files_ok n : forall acc ups t (v a : goval), typed G t v -> wf_type t -> wf_lib G ->
  setByMultipartFormFile G n acc ups t v = (a, BOk) -> stores G t ups a.
Proof.
  induction n as [|n IH]; [done|]. intros acc ups t v a Ht Hw Hlib E.
  assert (forall t, match ups with d :: _ => set_file G acc d t v | [] => (v, BPanic (L "index out of range")) end = (a, BOk) -> stores G t ups a) as Hone.
  { intros t'. destruct ups as [|d ups]; [done|]. apply set_file_ok. }
  destruct t; try (apply Hone; exact E); cbn [setByMultipartFormFile] in E; clear Hone.
  - assert (wf_type (resolve G t)) as Hwe by (by apply wf_resolve_slice).
    destruct (each_file _ ups _) as [l o] eqn:Es. destruct o; try discriminate. apply assign_ok in E as [-> _]. constructor.
    apply each_ok in Es; [|by rewrite replicate_length]. rewrite zip_replicate in Es by done. apply Forall2_map_l in Es. cbn [fst snd] in Es.
    eapply Forall2_impl; [exact Es|]. intros d x Ex. apply (IH _ _ _ _ _ (zero_typed G _ Hwe) Hwe Hlib Ex).
  - destruct (Nat.eqb_spec n0 (length ups)) as [->|]; cbn [negb] in E; [|done].
    inversion Ht as [| | | | |? ? Hx| | | | | |? ? l Hl' Hf| | | |]; subst; [done|].
    destruct (each_file _ ups _) as [l' o] eqn:Es. injection E as <- ->. constructor; [done|].
    apply each_ok in Es; [|done]. apply (Forall2_zip_l (fun d a => stores G t [d] a) ups l); [done|].
    apply Forall2_same_length_lookup. split; [by apply Forall2_length in Es|]. intros i [d w] x Hi Hj.
    apply (Forall2_lookup_lr _ _ _ _ _ _ Es Hi) in Hj. cbn [fst snd] in *.
    apply lookup_zip_with_Some in Hi as (d' & w' & E & _ & Hi2). injection E as <- <-.
    apply (IH acc [d] t w x); [|exact Hw|exact Hlib|exact Hj]. by apply (Forall_lookup_1 _ _ _ _ Hf Hi2).
Qed.
(** with enough fuel the files that suit are stored *)
Lemma stores_len t ups (a : goval) : stores G t ups a -> ups <> [] \/ (exists e, t = TSlice e) \/ (exists e, t = TArray 0 e).
Proof. intros Hs. inversion Hs as [| | |? ? ? ? E]; subst; eauto. destruct ups; eauto. Qed.
Lemma file_one t d ups (v a : goval) : stores G t (d :: ups) a -> (forall e, t <> TSlice e) -> (forall n e, t <> TArray n e) ->
  set_file G settable d t v = (a, BOk).
Proof.
  intros Hs H1 H2. inversion Hs as [| ? ? ? Er|?|]; subst; cbn [set_file settable a_hidden]; [done|by rewrite Er|by destruct (H1 e)|by destruct (H2 (length (d :: ups)) e)].
Qed.
Lemma files_set n : forall ups t (v a : goval), typed G t v -> wf_type t -> wf_lib G ->
  stores G t ups a -> ups <> [] -> snd (setByMultipartFormFile G n settable ups t v) <> BDiverge ->
  setByMultipartFormFile G n settable ups t v = (a, BOk).
Proof.
  induction n as [|n IH]; [done|]. intros ups t v a Ht Hw Hlib Hs Hne Hd.
  assert (forall e ups l l', length ups = length l -> Forall2 (fun d a => stores G e [d] a) ups l' -> wf_type e -> Forall (typed G e) l ->
    snd (each_file (fun d => setByMultipartFormFile G n settable [d] e) ups l) <> BDiverge ->
    each_file (fun d => setByMultipartFormFile G n settable [d] e) ups l = (l', BOk)) as Hall.
  { intros e us. induction us as [|d us IHu]; intros l l' Hl Hf Hwe Hty Hdiv; inversion Hf as [|? a' ? l0 H1 H2]; subst; destruct l as [|w l]; try done.
    inversion Hty; subst. cbn [each_file] in *.
    assert (setByMultipartFormFile G n settable [d] e w = (a', BOk)) as Ea.
    { apply IH; try done. intros E. destruct (setByMultipartFormFile _ _ _ _ _ w) as [w' o]. cbn in E. by subst o. }
    rewrite Ea in Hdiv |- *. rewrite (IHu l l0); try done; [cbn in Hl; lia|]. by destruct (each_file _ us l). }
  destruct ups as [|d ups]; [done|].
  destruct t; try (apply (file_one _ d ups); [exact Hs|congruence|congruence]); cbn [setByMultipartFormFile] in *.
  - assert (wf_type (resolve G t)) as Hwe by (by apply wf_resolve_slice).
    inversion Hs as [| |? ? l Hf|]; subst. rewrite (Hall _ _ _ l); try done.
    + by rewrite replicate_length.
    + apply Forall_replicate. by apply zero_typed.
    + intros E. destruct (each_file _ _ _) as [l' o]. cbn in E. by subst o.
  - inversion Hs as [| | |? ? ? l Hl Hf]; subst. rewrite Nat.eqb_refl in *. cbn [negb] in *.
    inversion Ht as [| | | | |? ? Hx| | | | | |? ? l0 Hl' Hf'| | | |]; subst; [done|]. rewrite (Hall _ _ _ l); try done.
    intros E. destruct (each_file _ _ _) as [l' o]. cbn in E. by subst o.
Qed.
Lemma files_sound n : forall ups t (v : goval), typed G t v -> wf_type t -> wf_lib G -> ups <> [] ->
  snd (setByMultipartFormFile G n settable ups t v) <> BDiverge -> sound (snd (setByMultipartFormFile G n settable ups t v)).
Proof.
  induction n as [|n IH]; [done|]. intros ups t v Ht Hw Hlib Hne Hd.
  assert (forall e ups l, length ups = length l -> wf_type e -> Forall (typed G e) l ->
    snd (each_file (fun d => setByMultipartFormFile G n settable [d] e) ups l) <> BDiverge ->
    sound (snd (each_file (fun d => setByMultipartFormFile G n settable [d] e) ups l))) as Hall.
  { intros e us. induction us as [|d us IHu]; intros l Hl Hwe Hty Hdiv; destruct l as [|w l]; try done; [by left|].
    inversion Hty; subst. cbn [each_file] in *. pose proof (IH [d] e w) as IH1.
    destruct (setByMultipartFormFile _ _ _ _ _ w) as [w' o] eqn:Eo. cbn [snd] in *.
    assert (o <> BDiverge) as Hod by (intros ->; by apply Hdiv).
    destruct (IH1 ltac:(done) ltac:(done) ltac:(done) ltac:(done) Hod) as [->|[e' ->]]; [|right; cbn; eauto].
    pose proof (IHu l ltac:(cbn in Hl; lia) ltac:(done) ltac:(done)) as IH2. destruct (each_file _ us l) as [l' o']. cbn [snd] in *. by apply IH2. }
  destruct ups as [|d ups]; [done|].
  assert (forall t, sound (snd (set_file G settable d t v))) as Hone.
  { intros t'. unfold sound. destruct t'; cbn; eauto. destruct (resolve G t'); cbn; eauto. }
  destruct t; try apply Hone; cbn [setByMultipartFormFile] in *.
  - assert (wf_type (resolve G t)) as Hwe by (by apply wf_resolve_slice).
    pose proof (Hall (resolve G t) (d :: ups) (replicate (length (d :: ups)) (zero G (resolve G t)))) as Ha.
    destruct (each_file _ _ _) as [l' o]. cbn [snd] in *. destruct Ha as [->|[e ->]].
    + by rewrite replicate_length.
    + done.
    + apply Forall_replicate. by apply zero_typed.
    + intros ->. by apply Hd.
    + left. done.
    + right. cbn. eauto.
  - destruct (Nat.eqb_spec n0 (length (d :: ups))) as [->|]; cbn [negb] in *; [|right; cbn; eauto].
    inversion Ht as [| | | | |? ? Hx| | | | | |? ? l0 Hl' Hf'| | | |]; subst; [done|].
    pose proof (Hall t (d :: ups) l0) as Ha. destruct (each_file _ _ _) as [l' o]. cbn [snd] in *. by apply Ha.
Qed.
End Facts.
