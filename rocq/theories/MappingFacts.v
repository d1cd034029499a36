(** Facts about the mapping of the Bind2 methods: one field. *)
From Coq Require Import ZArith NArith.
From Verif Require Import Base GoStr GoStrFacts Strconv UtilSpec StrconvFacts Header Binding BindingSpec BindingFacts BindingTop BindingMore Mapping MappingSpec.

(** ** Keys *)
Lemma tag_value_eq f tag text : tag_value f tag text <-> text = tag_get (f_tag f) tag.
Proof.
  split.
  - intros [Ht|[-> Ht]]; [by rewrite (tag_get_text _ _ _ Ht)|by rewrite tag_get_none].
  - intros ->. destruct (tag_text_dec (f_tag f) tag) as [[text Ht]|Hn].
    + left. by rewrite (tag_get_text _ _ _ Ht).
    + right. by rewrite tag_get_none.
Qed.
Lemma skipped_eq tag f : skipped tag f <-> seqb (tag_get (f_tag f) tag) (L "-") = true.
Proof. unfold skipped. rewrite tag_value_eq, seqb_true. split; congruence. Qed.
Lemma skipped_dec tag f : {skipped tag f} + {~ skipped tag f}.
Proof.
  destruct (seqb (tag_get (f_tag f) tag) (L "-")) eqn:E; [left; by apply skipped_eq|right].
  intros H. apply skipped_eq in H. congruence.
Qed.
Lemma open_field_dec f : {open_field f} + {~ open_field f}.
Proof.
  destruct (f_exported f) eqn:E1; [by left; left|]. destruct (f_anon f) eqn:E2; [by left; right|].
  right. intros [H|H]; congruence.
Qed.
Lemma open_field_eq f : open_field f <-> negb (f_exported f) && negb (f_anon f) = false.
Proof. unfold open_field. destruct (f_exported f), (f_anon f); cbn; intuition congruence. Qed.

(** the key and the default that tryToSetValue computes *)
Definition key_of (tag : gostr) (f : field) : gostr :=
  let name := fst (head "," (tag_get (f_tag f) tag)) in if seqb name [] then f_name f else name.
Definition default_of (tag : gostr) (f : field) : gostr := default_opt (snd (head "," (tag_get (f_tag f) tag))).
Lemma bound_as_eq tag f key d : bound_as tag f key d <->
  ~ skipped tag f /\ key <> [] /\ key = key_of tag f /\ d = default_of tag f.
Proof.
  unfold key_of, default_of. split.
  - intros (text & name & opts & Ht & Hm & Hp & Hd & Hk & Hn). apply tag_value_eq in Ht. subst text.
    destruct Hp as [E Hf]. rewrite E, head_commas by done. cbn [fst snd]. split; [|split; [done|]].
    + intros Hs. apply skipped_eq in Hs. apply seqb_true in Hs. done.
    + inversion Hf; subst. split; [|by rewrite default_opt_defaults with (d := d)].
      destruct Hn as [->|[-> ->]]; [|done]. by rewrite (proj2 (seqb_false name [])).
  - intros (Hs & Hk & E1 & E2). set (text := tag_get (f_tag f) tag) in *.
    destruct (tag_parts_exists text) as (name & opts & Hp). destruct (defaults_exists opts) as [d' Hd].
    destruct Hp as [E Hf]. inversion Hf; subst.
    exists text, name, opts. split; [by apply tag_value_eq|]. split.
    { intros E'. apply Hs. apply skipped_eq. fold text. rewrite E'. apply seqb_refl. }
    rewrite E, head_commas in * by done. cbn [fst snd] in *. rewrite (default_opt_defaults _ _ ltac:(done) Hd) in *.
    split; [done|]. split; [done|]. split; [done|]. destruct (seqb_spec name []) as [->|]; auto.
Qed.

Section Facts.
Context {D : Type} (G : golib D) (H : filelib D).
Notation goval := (goval D).

(** the effect of texts *)
Definition by_texts (acc : access) (f : field) (t : gotype) (v : goval) (vals : list gostr) : goval * mout :=
  match t with
  | TSlice e => done (setSlice G acc f (resolve G e) vals v)
  | TArray n e =>
      if negb (length vals =? n) then (v, MStop (BErr ELength))
      else match v with
           | VArray l => let '(l, o) := setArray G acc f e vals l in done (VArray l, o)
           | _ => (v, MStop (BPanic type_panic))
           end
  | _ => done (setWithProperType G acc (hd [] vals) f t v)
  end.
Lemma setByForm_eq acc f t v form key d :
  setByForm G acc f t v form key d =
    match form !! key with
    | Some vals => by_texts acc f t v vals
    | None => if seqb d [] then (v, MOk false) else by_texts acc f t v [d]
    end.
Proof.
  unfold setByForm, by_texts. destruct (form !! key) as [[|x vals]|]; cbn [default hd]; [done|done|].
  destruct (seqb d []); [done|]. by destruct t.
Qed.
Lemma given_files_eq s tag f ups : given_files s tag f ups <->
  ~ skipped tag f /\ key_of tag f <> [] /\ ups <> [] /\ exists form files, s = SMulti form files /\ files !! key_of tag f = Some (ups : list D).
Proof.
  split.
  - intros (key & d & form & files & Hb & -> & Hf & Hu). apply bound_as_eq in Hb as (H1 & H2 & -> & ->). eauto 10.
  - intros (H1 & H2 & H3 & form & files & -> & Hf). exists (key_of tag f), (default_of tag f), form, files.
    split; [by apply bound_as_eq|done].
Qed.
Lemma given_texts_eq (s : setter D) tag f vals : given_texts s tag f vals <->
  (forall ups, ~ given_files s tag f ups) /\ ~ skipped tag f /\ key_of tag f <> [] /\
  (finds s (key_of tag f) = Some vals \/ (finds s (key_of tag f) = None /\ default_of tag f <> [] /\ vals = [default_of tag f])).
Proof.
  split.
  - intros (H1 & key & d & Hb & H2). apply bound_as_eq in Hb as (? & ? & -> & ->). done.
  - intros (H1 & H2 & H3 & H4). split; [done|]. exists (key_of tag f), (default_of tag f). split; [by apply bound_as_eq|done].
Qed.
Lemma files_unique (s : setter D) tag f ups ups' : given_files s tag f ups -> given_files s tag f ups' -> ups = ups'.
Proof.
  intros Ha Hb. apply given_files_eq in Ha as (_ & _ & _ & form & files & -> & E), Hb as (_ & _ & _ & form' & files' & E' & E'').
  injection E' as <- <-. congruence.
Qed.
Lemma texts_unique2 (s : setter D) tag f vals vals' : given_texts s tag f vals -> given_texts s tag f vals' -> vals = vals'.
Proof.
  intros Ha Hb. apply given_texts_eq in Ha as (_ & _ & _ & Ha), Hb as (_ & _ & _ & Hb).
  destruct Ha as [Ha|(Ha & _ & ->)], Hb as [Hb|(Hb & _ & ->)]; congruence.
Qed.
Lemma texts_not_files (s : setter D) tag f vals ups : given_texts s tag f vals -> ~ given_files s tag f ups.
Proof. intros [H1 _]. apply H1. Qed.

Lemma try2_cases n (s : setter D) tag acc f t v : ~ skipped tag f ->
  (~ given s tag f /\ tryToSetValue G n s tag acc f t v = (v, MOk false)) \/
  (exists vals, given_texts s tag f vals /\ tryToSetValue G n s tag acc f t v = by_texts acc f t v vals) \/
  (exists ups, given_files s tag f ups /\ tryToSetValue G n s tag acc f t v = done (setByMultipartFormFile G n acc ups t v)).
Proof.
  intros Hs. unfold tryToSetValue.
  assert (head "," (tag_get (f_tag f) tag) = (fst (head "," (tag_get (f_tag f) tag)), snd (head "," (tag_get (f_tag f) tag)))) as -> by (by destruct (head _ _)).
  cbv zeta. change (if seqb (fst (head "," (tag_get (f_tag f) tag))) [] then f_name f else fst (head "," (tag_get (f_tag f) tag))) with (key_of tag f).
  fold (default_of tag f). destruct (seqb_spec (key_of tag f) []) as [E|Hk].
  { left. split; [|done]. intros [[vals Hv]|[ups Hu]]; [by apply given_texts_eq in Hv as (_ & _ & ? & _)|by apply given_files_eq in Hu as (_ & ? & _)]. }
  assert (forall form key', (forall ups, ~ given_files s tag f ups) -> finds s (key_of tag f) = form !! key' ->
    (~ given s tag f /\ setByForm G acc f t v form key' (default_of tag f) = (v, MOk false)) \/
    (exists vals, given_texts s tag f vals /\ setByForm G acc f t v form key' (default_of tag f) = by_texts acc f t v vals)) as Hform.
  { intros form key' Hno Ef. rewrite setByForm_eq. destruct (form !! key') as [vals|].
    - right. exists vals. split; [|done]. apply given_texts_eq. auto 10.
    - destruct (seqb_spec (default_of tag f) []) as [Ed|Hd].
      + left. split; [|done]. intros [[vals Hv]|[ups Hu]]; [|by apply (Hno ups)].
        apply given_texts_eq in Hv as (_ & _ & _ & [Hv|(_ & Hv & _)]); [congruence|done].
      + right. exists [default_of tag f]. split; [|done]. apply given_texts_eq. auto 10. }
  destruct s as [form|form files|h]; cbn [TrySet].
  - assert (forall ups, ~ given_files (D := D) (SForm form) tag f ups) as Hno.
    { intros ups Hu. apply given_files_eq in Hu as (_ & _ & _ & ? & ? & ? & _). done. }
    destruct (Hform form (key_of tag f) Hno eq_refl) as [?|?]; auto.
  - destruct (files !! key_of tag f) as [[|d ups]|] eqn:Ef; cbn [default].
    + assert (forall ups, ~ given_files (SMulti form files) tag f ups) as Hno.
      { intros ups Hu. apply given_files_eq in Hu as (_ & _ & Hn & ? & ? & E & E'). injection E as <- <-. congruence. }
      destruct (Hform form (key_of tag f) Hno eq_refl) as [?|?]; auto.
    + right. right. exists (d :: ups). split; [|done]. apply given_files_eq. eauto 10.
    + assert (forall ups, ~ given_files (SMulti form files) tag f ups) as Hno.
      { intros ups Hu. apply given_files_eq in Hu as (_ & _ & Hn & ? & ? & E & E'). injection E as <- <-. congruence. }
      destruct (Hform form (key_of tag f) Hno eq_refl) as [?|?]; auto.
  - assert (forall ups, ~ given_files (D := D) (SHeader h) tag f ups) as Hno.
    { intros ups Hu. apply given_files_eq in Hu as (_ & _ & _ & ? & ? & ? & _). done. }
    destruct (Hform h (canon (key_of tag f)) Hno eq_refl) as [?|?]; auto.
Qed.
Lemma given_dec (s : setter D) tag f : given s tag f \/ ~ given s tag f.
Proof.
  destruct (skipped_dec tag f) as [Hs|Hs].
  { right. intros [[vals Hv]|[ups Hu]]; [by apply given_texts_eq in Hv as (_ & ? & _)|by apply given_files_eq in Hu as (? & _)]. }
  destruct (try2_cases 0 s tag settable f TBool (VBool true) Hs) as [[? _]|[(vals & ? & _)|(ups & ? & _)]]; [by right|left; left; eauto|left; right; eauto].
Qed.

(** ** Single values *)
Definition width (w : N) : Prop := w ∈ [8; 16; 32; 64]%N.
Lemma width_bounds w : width w -> (2 <= w <= 64)%N.
Proof. unfold width. rewrite !elem_of_cons. intros [->|[->|[->|[->|Hw]]]]; [lia..|by apply elem_of_nil in Hw]. Qed.
Lemma parse_int_ok2 w s z : width w -> parse_int w s = (z, ErrNone) <-> decimal s z /\ fits_int w z.
Proof.
  intros Hw%width_bounds. unfold fits_int. set (p := (2 ^ (Z.of_N w - 1))%Z).
  assert (0 < p)%Z as Hp by (apply Z.pow_pos_nonneg; lia). split.
  - intros E. destruct (decimal_dec s) as [[z' Hz]|Hn].
    + rewrite (parse_int_decimal w s z') in E by done. fold p in E.
      destruct (bool_decide_reflect (- p <= z' <= p - 1)%Z) as [Hr|]; [|discriminate].
      injection E as E. unfold clamp in E. assert (z' = z) as -> by lia. split; [done|lia].
    + exfalso. destruct (digits_span (snd (sign_body s))) as (ds & r & E0 & Hd & Hr).
      rewrite (parse_int_spec w s ds r) in E by done. cbv zeta in E.
      destruct (bool_decide_reflect (ds ++ r = [])) as [|Hne]; [done|].
      destruct (_ <? dec_value ds)%Z; [by destruct (fst (sign_body s))|]. destruct r as [|c r]; [|done].
      rewrite app_nil_r in E0, Hne. apply (Hn (signed (fst (sign_body s)) (dec_value ds))). apply decimal_iff. by rewrite E0.
  - intros [Hd Hr]. rewrite (parse_int_decimal w s z) by done. fold p.
    rewrite bool_decide_eq_true_2 by lia. f_equal. unfold clamp. lia.
Qed.
Lemma parse_uint_ok2 w s n : width w -> parse_uint w s = (n, ErrNone) <-> udecimal s (Z.of_N n) /\ fits_uint w (Z.of_N n).
Proof.
  intros Hw%width_bounds. unfold fits_uint. set (p := (2 ^ Z.of_N w)%Z).
  assert (0 < p)%Z as Hp by (apply Z.pow_pos_nonneg; lia). split.
  - intros E. destruct (digits_span s) as (ds & r & -> & Hd & Hr).
    destruct (decide (ds ++ r = [])) as [Ee|Hne]; [by rewrite Ee in E|].
    rewrite parse_uint_spec in E by (done || lia). fold p in E.
    destruct (_ <? dec_value ds)%Z eqn:El; [done|]. apply Z.ltb_ge in El. destruct r as [|c r]; [|done].
    rewrite app_nil_r in *. injection E as <-. assert (0 <= dec_value ds)%Z by (by apply dec_value_ge).
    rewrite Z2N.id by done. split; [done|]. lia.
  - intros [Hd Hr]. rewrite (parse_uint_decimal w s (Z.of_N n)) by (done || lia). fold p.
    rewrite bool_decide_eq_true_2 by lia. f_equal. unfold clamp. rewrite Z.min_r, Z.max_r by lia. apply N2Z.id.
Qed.
Lemma number_parse2 w s z : width w -> parse_int w (if seqb s [] then L "0" else s) = (z, ErrNone) <-> number s z /\ fits_int w z.
Proof.
  intros Hw. rewrite parse_int_ok2 by done. unfold number. destruct (seqb_spec s []) as [->|Hne].
  - assert (decimal (L "0") 0) as H0 by (apply (itoa_decimal 0)).
    assert (forall z', decimal (L "0") z' -> z' = 0%Z) as Hu.
    { intros z' Hz. apply decimal_iff in Hz as (_ & _ & ->). reflexivity. }
    split; intros [Hz Hf]; (split; [|done]).
    + right. split; [done|]. by apply Hu.
    + destruct Hz as [Hz|[_ ->]]; [|done]. exfalso. apply decimal_iff in Hz as (Hz & _). done.
  - split; intros [H1 H2]; (split; [|done]); [by left|]. by destruct H1 as [|[? _]].
Qed.
Lemma unumber_parse2 w s n : width w ->
  parse_uint w (if seqb s [] then L "0" else s) = (n, ErrNone) <-> unumber s (Z.of_N n) /\ fits_uint w (Z.of_N n).
Proof.
  intros Hw. rewrite parse_uint_ok2 by done. unfold unumber. destruct (seqb_spec s []) as [->|Hne].
  - assert (udecimal (L "0") 0) as H0 by (apply (itoa_udecimal 0); lia).
    assert (forall z', udecimal (L "0") z' -> z' = 0%Z) as Hu.
    { intros z' (_ & _ & ->). reflexivity. }
    split; intros [Hz Hf]; (split; [|done]).
    + right. split; [done|]. by apply Hu.
    + destruct Hz as [Hz|[_ Hz]]; [by destruct Hz|]. by rewrite Hz.
  - split; intros [H1 H2]; (split; [|done]); [by left|]. by destruct H1 as [|[? _]].
Qed.
Lemma time_ok2 f s d : time_value G s (mkOpt [] (tag_get (f_tag f) (L "time_format")) (tag_get (f_tag f) (L "time_utc")) (tag_get (f_tag f) (L "time_location"))) = inl d <-> instant G f s d.
Proof.
  rewrite <- (time_ok G f (L "form")). unfold parseFormName. by destruct (head _ _).
Qed.

Lemma assign_ok acc (v v' : goval) r : assign acc v v' = (r, BOk) -> r = v' /\ acc = settable.
Proof. destruct acc as [[] []]; cbn; try done. by intros [= ->]. Qed.
(** success means that the value could be set *)
Lemma proper_settable acc s f t (v a : goval) : setWithProperType G acc s f t v = (a, BOk) -> acc = settable.
Proof.
  destruct acc as [[] []]; try done; destruct t as [w|w| | |w| | | | | | | | | | | | |]; cbn;
    unfold setIntField, setUintField, setBoolField, setFloatField, setTimeDuration, setTimeField, assign; cbn; try done;
    repeat (case_match; try done).
Qed.
Definition wf_elem (t : gotype) : Prop := match t with TInt w | TUint w => width w | _ => True end.
Lemma wf_type_elem t : wf_type t -> wf_elem t.
Proof. by destruct t. Qed.
Lemma proper_reads f t s (v a : goval) : wf_elem t -> setWithProperType G settable s f t v = (a, BOk) <-> reads_as G f t v s a.
Proof.
  intros Hw. destruct t as [w|w| | |w| | | |fs|e|e|n e| | |x y| | |x]; cbn [setWithProperType settable a_hidden a_addr negb].
  - unfold setIntField. pose proof (fun z => number_parse2 w s z Hw) as Hp. destruct (parse_int w _) as [z e]. split.
    + destruct e; try discriminate. intros [= <-]. destruct (proj1 (Hp z) eq_refl). by constructor.
    + intros Hr. inversion Hr as [? ? ? z' Hn Hf| | | | | | |? ? ? ? Hj]; subst; [|done].
      pose proof (proj2 (Hp z') (conj Hn Hf)) as Hq. injection Hq as -> ->. reflexivity.
  - unfold setUintField. pose proof (fun z => unumber_parse2 w s z Hw) as Hp. destruct (parse_uint w _) as [z e]. split.
    + destruct e; try discriminate. intros [= <-]. destruct (proj1 (Hp z) eq_refl). by constructor.
    + intros Hr. inversion Hr as [|? ? ? z' Hn Hf| | | | | |? ? ? ? Hj]; subst; [|done].
      assert (exists n, z' = Z.of_N n) as [n ->] by (exists (Z.to_N z'); destruct Hf; lia).
      pose proof (proj2 (Hp n) (conj Hn Hf)) as Hq. injection Hq as -> ->. reflexivity.
  - unfold setTimeDuration. split.
    + destruct (g_duration G s) eqn:E; [|done]. intros [= <-]. by constructor.
    + intros Hr. inversion Hr as [| |? ? z' E| | | | |? ? ? ? Hj]; subst; [|done]. by rewrite E.
  - unfold setBoolField. pose proof (parse_bool_truth s) as Hp. destruct (parse_bool _) as [b ok]. split.
    + destruct ok; [|done]. intros [= <-]. constructor. by apply Hp.
    + intros Hr. inversion Hr as [| | |? ? x Hx| | | |? ? ? ? Hj]; subst; [|done]. apply Hp in Hx. injection Hx as -> ->. done.
  - unfold setFloatField. assert ((if seqb s [] then L "0.0" else s) = (if bool_decide (s = []) then L "0.0" else s)) as ->.
    { destruct (seqb_spec s []) as [->|]; [by rewrite bool_decide_eq_true_2|by rewrite bool_decide_eq_false_2]. }
    split.
    + destruct (g_float _ _ _) eqn:E; [|done]. intros [= <-]. by constructor.
    + intros Hr. inversion Hr as [| | | |? ? ? x E| | |? ? ? ? Hj]; subst; [|done].
      assert (g_float G w (if bool_decide (s = []) then L "0.0" else s) = Some x) as -> by exact E. done.
  - split; [intros [= <-]; constructor|]. intros Hr. inversion Hr as [| | | | |? ?| |? ? ? ? Hj]; subst; done.
  - unfold setTimeField. pose proof (time_ok2 f s) as Hp. destruct (time_value _ _ _) as [d|e]; split.
    + intros [= <-]. constructor. by apply Hp.
    + intros Hr. inversion Hr as [| | | | | |? ? d' Hd|? ? ? ? Hj]; subst; [|done]. apply Hp in Hd. by injection Hd as ->.
    + done.
    + intros Hr. inversion Hr as [| | | | | |? ? d' Hd|? ? ? ? Hj]; subst; [|done]. by apply Hp in Hd.
  - split; [|intros Hr; inversion Hr as [| | | | | | |? ? ? ? _ Hj]; subst; by rewrite Hj].
    destruct (g_json _ _ _ _) as [v' []] eqn:E; [|done]. intros [= ->]. by apply reads_json.
  - split; [|intros Hr; inversion Hr as [| | | | | | |? ? ? ? _ Hj]; subst; by rewrite Hj].
    destruct (g_json _ _ _ _) as [v' []] eqn:E; [|done]. intros [= ->]. by apply reads_json.
  - split; [done|]. intros Hr. by inversion Hr.
  - split; [done|]. intros Hr. by inversion Hr.
  - split; [done|]. intros Hr. by inversion Hr.
  - split; [|intros Hr; inversion Hr as [| | | | | | |? ? ? ? _ Hj]; subst; by rewrite Hj].
    destruct (g_json _ _ _ _) as [v' []] eqn:E; [|done]. intros [= ->]. by apply reads_json.
  - split; [|intros Hr; inversion Hr as [| | | | | | |? ? ? ? _ Hj]; subst; by rewrite Hj].
    destruct (g_json _ _ _ _) as [v' []] eqn:E; [|done]. intros [= ->]. by apply reads_json.
  - split; [|intros Hr; inversion Hr as [| | | | | | |? ? ? ? _ Hj]; subst; by rewrite Hj].
    destruct (g_json _ _ _ _) as [v' []] eqn:E; [|done]. intros [= ->]. by apply reads_json.
  - split; [done|]. intros Hr. by inversion Hr.
  - split; [done|]. intros Hr. by inversion Hr.
  - split; [done|]. intros Hr. by inversion Hr.
Qed.
(** a value that can be set is set, or there is an error *)
Definition sound (o : bout) : Prop := o = BOk \/ exists e, o = BErr e.
Lemma proper_sound s f t (v : goval) : sound (snd (setWithProperType G settable s f t v)).
Proof.
  unfold sound. destruct t as [w|w| | |w| | | |fs|e|e|n e| | |x y| | |x]; cbn [setWithProperType settable a_hidden a_addr negb];
    unfold setIntField, setUintField, setBoolField, setFloatField, setTimeDuration, setTimeField, assign; cbn; eauto;
    repeat (case_match; cbn; eauto).
Qed.
Lemma array_reads f e vals : forall l (l' : list goval), wf_elem e -> length vals = length l ->
  setArray G settable f e vals l = (l', BOk) <-> Forall2 (fun sb a => reads_as G f e (snd sb) (fst sb) a) (zip vals l) l'.
Proof.
  induction vals as [|s vals IH]; intros [|w l] l' Hw Hl; try done; cbn [setArray zip_with].
  - split; [intros [= <-]; constructor|]. intros Hf. by inversion Hf.
  - pose proof (proper_reads f e s w) as Hp. destruct (setWithProperType _ _ _ _ _ _) as [w' o].
    pose proof (fun l' => IH l l' Hw ltac:(cbn in Hl; lia)) as IH'. destruct (setArray _ _ _ _ vals l) as [l'' o'].
    split.
    + destruct o; try discriminate. intros [= <- ->]. constructor; [by apply Hp|by apply IH'].
    + intros Hf. inversion Hf as [|? a ? l0 H1 H2]; subst. cbn [fst snd] in H1. apply Hp in H1; [|done]. injection H1 as -> ->.
      apply IH' in H2. injection H2 as -> ->. done.
Qed.
Lemma array_sound f e vals : forall l : list goval, length vals = length l -> sound (snd (setArray G settable f e vals l)).
Proof.
  induction vals as [|s vals IH]; intros [|w l] Hl; try (by left); try done; cbn [setArray].
  pose proof (proper_sound s f e w) as Hp. destruct (setWithProperType _ _ _ _ _ _) as [w' o]. cbn [snd] in Hp.
  destruct Hp as [->|[e' ->]]; [|right; cbn; eauto].
  pose proof (IH l ltac:(cbn in Hl; lia)) as IH'. destruct (setArray _ _ _ _ vals l) as [l'' o']. exact IH'.
Qed.
Lemma array_settable acc f e vals : forall l l' : list goval, vals <> [] ->
  setArray G acc f e vals l = (l', BOk) -> acc = settable.
Proof.
  destruct vals as [|s vals]; [done|]. intros [|w l] l' _; cbn [setArray]; [done|].
  pose proof (proper_settable acc s f e w) as Hp. destruct (setWithProperType _ _ _ _ _ _) as [w' o]. destruct o; try done.
  intros _. by eapply Hp.
Qed.
Lemma zip_replicate {A B} (l : list A) (x : B) n : n = length l -> zip l (replicate n x) = map (fun a => (a, x)) l.
Proof. intros ->. induction l as [|a l IH]; [done|]. cbn. by rewrite IH. Qed.
Lemma Forall2_map_l {A B C} (P : B -> C -> Prop) (g : A -> B) l k : Forall2 P (map g l) k <-> Forall2 (fun a c => P (g a) c) l k.
Proof.
  revert k. induction l as [|a l IH]; intros k; cbn [map]; (split; intros Hf; inversion Hf; subst; constructor; try done); by apply IH.
Qed.

(** texts *)
Definition wf_field_type (t : gotype) : Prop :=
  match t with
  | TSlice e => wf_elem (resolve G e)
  | TArray _ e => wf_elem e
  | _ => wf_elem t
  end.
Lemma wf_type_field (Hlib : wf_lib G) t : wf_type t -> wf_field_type t.
Proof.
  intros Hw. destruct t; try (by apply wf_type_elem).
  apply wf_type_elem. by apply (wf_resolve_slice G).
Qed.
Definition good (m : mout) : Prop := match m with MOk b => b = true | MStop o => exists e, o = BErr e end.
Lemma by_texts_sound f t v vals : typed G t v -> good (snd (by_texts settable f t v vals)).
Proof.
  intros Ht. unfold good.
  assert (forall t, match snd (done (setWithProperType G settable (hd [] vals) f t v)) with MOk b => b = true | MStop o => exists e, o = BErr e end) as Hone.
  { intros t'. pose proof (proper_sound (hd [] vals) f t' v) as Hp. destruct (setWithProperType _ _ _ _ _ _) as [a o].
    cbn [snd done] in *. destruct Hp as [->|[e ->]]; cbn; eauto. }
  destruct t; try apply Hone; cbn [by_texts].
  - unfold setSlice. pose proof (array_sound f (resolve G t) vals (replicate (length vals) (zero G (resolve G t)))) as Hp.
    rewrite replicate_length in Hp. destruct (setArray _ _ _ _ _ _) as [l o].
    specialize (Hp eq_refl). cbn [snd] in Hp. destruct Hp as [->|[e ->]]; cbn; eauto.
  - destruct (Nat.eqb_spec (length vals) n) as [Hl|Hl]; cbn [negb]; [|cbn; eauto].
    inversion Ht as [| | | | |? ? Hx| | | | | |? ? l Hl' _| | | |]; subst; [done|].
    pose proof (array_sound f t vals l ltac:(congruence)) as Hp. destruct (setArray _ _ _ _ _ _) as [l' o].
    cbn [snd] in Hp. destruct Hp as [->|[e ->]]; cbn; eauto.
Qed.
Lemma by_texts_bears f t v vals a : wf_field_type t -> typed G t v ->
  by_texts settable f t v vals = (a, MOk true) <-> bears G f t v vals a.
Proof.
  intros Hw Ht.
  assert (forall t, wf_elem t -> (forall e, t <> TSlice e) -> (forall n e, t <> TArray n e) ->
    done (setWithProperType G settable (hd [] vals) f t v) = (a, MOk true) <-> bears G f t v vals a) as Hone.
  { intros t' Hw' Hn1 Hn2. pose proof (proper_reads f t' (hd [] vals) v a Hw') as Hp. split.
    - destruct (setWithProperType _ _ _ _ _ _) as [a' o]. cbn [done]. destruct o; try discriminate. intros [= ->].
      apply bears_one. by apply Hp.
    - intros Hb. inversion Hb as [? ? ? ? Hr|? ? ? ? Hr|? ? ? ? ? ? Hr]; subst; [|by destruct (Hn1 e)|by destruct (Hn2 (length vals) e)].
      apply Hp in Hr. by rewrite Hr. }
  destruct t; try (apply Hone; [exact Hw|congruence|congruence]); cbn [by_texts].
  - unfold setSlice. cbn [wf_field_type] in Hw.
    pose proof (fun l' => array_reads f (resolve G t) vals (replicate (length vals) (zero G (resolve G t))) l' Hw) as Hp.
    rewrite replicate_length, zip_replicate in Hp by done. destruct (setArray _ _ _ _ _ _) as [l o]. split.
    + destruct o; cbn; try discriminate. intros [= <-]. apply bears_slice.
      specialize (Hp l eq_refl). apply proj1 in Hp. specialize (Hp eq_refl). by apply Forall2_map_l in Hp.
    + intros Hb. inversion Hb as [? ? ? ? Hr|? ? ? l0 Hr|]; subst; [by inversion Hr|].
      specialize (Hp l0 eq_refl). apply proj2 in Hp. rewrite Forall2_map_l in Hp. specialize (Hp Hr). injection Hp as -> ->. done.
  - cbn [wf_field_type] in Hw. destruct (Nat.eqb_spec (length vals) n) as [Hl|Hl]; cbn [negb].
    + inversion Ht as [| | | | |? ? Hx| | | | | |? ? l Hl' _| | | |]; subst; [done|].
      pose proof (fun l' => array_reads f t vals l l' Hw ltac:(congruence)) as Hp. destruct (setArray _ _ _ _ _ _) as [l' o]. split.
      * destruct o; cbn; try discriminate. intros [= <-]. apply bears_array; [done|]. by apply Hp.
      * intros Hb. inversion Hb as [? ? ? ? Hr| |? ? ? ? l0 ? Hr]; subst; [by inversion Hr|]. apply Hp in Hr. injection Hr as -> ->. done.
    + split; [done|]. intros Hb. inversion Hb as [? ? ? ? Hr| |? ? ? ? l0 ? Hr]; subst; [by inversion Hr|done].
Qed.
End Facts.
