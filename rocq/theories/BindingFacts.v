(** Facts about binding forms to values. *)
From Coq Require Import ZArith NArith.
From Verif Require Import Base GoStr GoStrFacts Strconv UtilSpec StrconvFacts Header Binding BindingSpec.

(** ** Tags *)
Lemma commas_cons x l : l <> [] -> commas (x :: l) = x ++ ","%char :: commas l.
Proof. by destruct l. Qed.
Lemma split_commas l : l <> [] -> Forall (fun s => ","%char ∉ s) l -> split_byte "," (commas l) = l.
Proof.
  induction l as [|x l IH]; intros Hne H; [done|]. inversion H; subst.
  destruct l as [|y l]; [by apply split_no_sep|]. rewrite commas_cons by done.
  rewrite split_app by done. f_equal. apply IH; done.
Qed.
Lemma commas_split s : commas (split_byte "," s) = s.
Proof.
  rewrite <- (join_split "," s) at 2. pose proof (split_byte_nonempty "," s) as H. revert H.
  generalize (split_byte "," s). intros l. induction l as [|x l IH]; [done|]. intros _.
  destruct l as [|y l]; [done|]. rewrite commas_cons, join_cons by done. rewrite IH by done. done.
Qed.
Lemma head_app sep x r : sep ∉ x -> head sep (x ++ sep :: r) = (x, r).
Proof.
  intros H. unfold head. assert (index_byte sep (x ++ sep :: r) = Some (length x)) as ->.
  { induction x as [|a x IH]; cbn; [by rewrite Ascii.eqb_refl|]. apply not_elem_of_cons in H as [H1 H2].
    destruct (Ascii.eqb_spec a sep); [congruence|]. by rewrite IH. }
  f_equal; [by rewrite take_app|]. rewrite (cons_middle sep x r), app_assoc, drop_app_alt; [done|]. rewrite app_length. cbn. lia.
Qed.
Lemma head_none sep x : sep ∉ x -> head sep x = (x, []).
Proof. intros H. unfold head. apply index_byte_None in H. by rewrite H. Qed.
Lemma head_commas name opts : Forall (fun s => ","%char ∉ s) (name :: opts) ->
  head "," (commas (name :: opts)) = (name, commas opts).
Proof.
  intros H. inversion H; subst. destruct opts as [|o opts]; [by apply head_none|].
  rewrite commas_cons by done. by apply head_app.
Qed.

Lemma tag_get_text tags key text : tag_text tags key text -> tag_get tags key = text.
Proof.
  intros (pre & post & -> & H). induction pre as [|[k v] pre IH]; cbn [app tag_get].
  - by rewrite seqb_refl.
  - cbn in H. apply not_elem_of_cons in H as [H1 H2]. rewrite (proj2 (seqb_false k key)) by congruence. by apply IH.
Qed.
Lemma tag_get_none tags key : (forall text, ~ tag_text tags key text) -> tag_get tags key = [].
Proof.
  induction tags as [|[k v] tags IH]; intros H; [done|]. cbn. destruct (seqb_spec k key) as [->|Hne].
  - exfalso. apply (H v). exists [], tags. split; [done|apply not_elem_of_nil].
  - apply IH. intros text (pre & post & -> & Hn). apply (H text). exists ((k, v) :: pre), post.
    split; [done|]. cbn. apply not_elem_of_cons. split; congruence.
Qed.
Lemma tag_text_dec tags key : (exists text, tag_text tags key text) \/ (forall text, ~ tag_text tags key text).
Proof.
  induction tags as [|[k v] tags IH].
  - right. intros text (pre & post & E & _). by destruct pre.
  - destruct (decide (k = key)) as [->|Hne].
    + left. exists v, [], tags. split; [done|apply not_elem_of_nil].
    + destruct IH as [(text & pre & post & -> & H)|H].
      * left. exists text, ((k, v) :: pre), post. split; [done|]. cbn. apply not_elem_of_cons. split; congruence.
      * right. intros text (pre & post & E & Hn). destruct pre as [|[k' v'] pre]; cbn in E.
        -- inversion E; subst. done.
        -- inversion E; subst. cbn in Hn. apply not_elem_of_cons in Hn as [_ Hn]. apply (H text). by exists pre, post.
Qed.

(** ** Defaults *)
Definition opt_default (o : gostr) : option gostr :=
  let '(k, v) := head "=" o in if seqb k (L "default") then Some v else None.
Lemma opt_default_gives o d : opt_default o = Some d <-> gives o d.
Proof.
  unfold opt_default, gives. split.
  - destruct (head "=" o) as [k v] eqn:E. destruct (seqb_spec k (L "default")) as [->|]; [|done]. intros [= <-].
    unfold head in E. destruct (index_byte "=" o) as [i|] eqn:Ei.
    + apply index_byte_Some in Ei as (Ho & _). injection E as E1 E2. left. rewrite Ho, E1, E2.
      change (L "default=") with (L "default" ++ ["="%char]). by rewrite <- app_assoc.
    + injection E as -> <-. by right.
  - intros [->|[-> ->]].
    + change (L "default=" ++ d) with (L "default" ++ "="%char :: d).
      rewrite head_app by (apply (bool_decide_eq_true _); vm_compute; reflexivity). by rewrite seqb_refl.
    + rewrite head_none by (apply (bool_decide_eq_true _); vm_compute; reflexivity). by rewrite seqb_refl.
Qed.
Lemma fold_defaults l d : (forall o x, o ∈ l -> ~ gives o x) ->
  fold_left (fun d opt => let '(k, v) := head "=" opt in if seqb k (L "default") then v else d) l d = d.
Proof.
  revert d. induction l as [|o l IH]; intros d H; [done|]. cbn [fold_left].
  assert ((let '(k, v) := head "=" o in if seqb k (L "default") then v else d) = d) as ->.
  { destruct (opt_default o) as [x|] eqn:E.
    - apply opt_default_gives in E. exfalso. apply (H o x); [apply elem_of_list_here|done].
    - unfold opt_default in E. destruct (head "=" o). by destruct (seqb _ _). }
  apply IH. intros o' x Hin. apply H. by apply elem_of_list_further.
Qed.
Lemma fold_defaults_app l1 l2 d :
  fold_left (fun d opt => let '(k, v) := head "=" opt in if seqb k (L "default") then v else d) (l1 ++ l2) d =
  fold_left (fun d opt => let '(k, v) := head "=" opt in if seqb k (L "default") then v else d) l2
    (fold_left (fun d opt => let '(k, v) := head "=" opt in if seqb k (L "default") then v else d) l1 d).
Proof. apply fold_left_app. Qed.
Lemma defaults_fold opts d : defaults opts d ->
  fold_left (fun d opt => let '(k, v) := head "=" opt in if seqb k (L "default") then v else d) opts [] = d.
Proof.
  intros H. inversion H as [? Hn|pre o post d' Hg Hn]; subst; [by apply fold_defaults|].
  rewrite fold_defaults_app. cbn [fold_left]. apply opt_default_gives in Hg. unfold opt_default in Hg.
  destruct (head "=" o) as [k v]. destruct (seqb k (L "default")); [|done]. injection Hg as ->. by apply fold_defaults.
Qed.
Lemma default_opt_defaults opts d : Forall (fun s => ","%char ∉ s) opts -> defaults opts d -> default_opt (commas opts) = d.
Proof.
  intros Hf H. unfold default_opt. destruct opts as [|o opts]; [|rewrite split_commas by done; by apply defaults_fold].
  inversion H as [|pre ? ? ? ? ? E]; subst; [reflexivity|]. by destruct pre.
Qed.
Lemma defaults_exists opts : exists d, defaults opts d.
Proof.
  induction opts as [|o opts [d IH]]; [exists []; constructor; intros o d H; by apply elem_of_nil in H|].
  inversion IH as [? Hn|pre o' post d' Hg Hn]; subst.
  - destruct (opt_default o) as [x|] eqn:E.
    + exists x. apply (defaults_some [] o opts); [by apply opt_default_gives|done].
    + exists []. constructor. intros o' d' Hin. apply elem_of_cons in Hin as [->|Hin]; [|by apply Hn].
      intros Hg. apply opt_default_gives in Hg. congruence.
  - exists d. by apply (defaults_some (o :: pre) o' post).
Qed.

(** ** parseFormName *)
Lemma canon_minus n : canon n = L "-" -> n = L "-".
Proof.
  unfold canon. destruct (forallb token_byte n); [|done]. destruct n as [|a n]; [done|]. cbn [canon_case].
  intros E. injection E as E1 E2. destruct n; [|done]. unfold upper_byte in E1.
  destruct (_ && _)%N eqn:Ha in E1; [|by rewrite E1]. exfalso. apply andb_true_iff in Ha as [H1 H2]. apply N.leb_le in H1, H2. unfold byte_of in *.
  apply (f_equal N_of_ascii) in E1. rewrite N_ascii_embedding in E1 by lia. vm_compute (N_of_ascii "-") in E1. lia.
Qed.
Lemma tag_parts_exists text : exists name opts, tag_parts text name opts.
Proof.
  pose proof (split_byte_nonempty "," text) as H. destruct (split_byte "," text) as [|name opts] eqn:E; [done|].
  exists name, opts. split; [by rewrite <- E, commas_split|]. rewrite <- E. apply split_byte_no_sep.
Qed.
Lemma tag_parts_unique text n o n' o' : tag_parts text n o -> tag_parts text n' o' -> n = n' /\ o = o'.
Proof.
  intros [E H] [E' H']. assert (n :: o = n' :: o') as Hx; [|by injection Hx].
  rewrite <- (split_commas (n :: o)), <- (split_commas (n' :: o')) by done. congruence.
Qed.

(** what the name is made of *)
Lemma name_of_text tag f text name opts : tag_text (f_tag f) tag text -> tag_parts text name opts ->
  fst (parseFormName f tag) = (if bool_decide (name = [] \/ name = L "-") then L "-"
    else if bool_decide (tag = L "header") then canon name else name) /\
  o_default (snd (parseFormName f tag)) = default_opt (commas opts).
Proof.
  intros Ht [E Hf]. unfold parseFormName. rewrite (tag_get_text _ _ _ Ht), E, head_commas by done.
  cbn [fst snd o_default]. split; [|done].
  destruct (seqb_spec name []) as [->|Hne].
  - rewrite seqb_refl, andb_false_r. rewrite bool_decide_eq_true_2 by auto. done.
  - destruct (seqb_spec name (L "-")) as [->|Hm].
    + rewrite andb_false_r, bool_decide_eq_true_2 by auto. done.
    + rewrite (bool_decide_eq_false_2 (name = [] \/ name = L "-")) by tauto. rewrite andb_true_r.
      destruct (seqb_spec tag (L "header")); [by rewrite bool_decide_eq_true_2|by rewrite bool_decide_eq_false_2].
Qed.
Lemma parse_tagged tag f key d : tagged tag f key d ->
  fst (parseFormName f tag) = key /\ key <> L "-" /\ o_default (snd (parseFormName f tag)) = d.
Proof.
  intros (text & name & opts & Ht & Hp & Hn & Hm & Hd & ->).
  destruct (name_of_text tag f text name opts Ht Hp) as [-> ->].
  rewrite (bool_decide_eq_false_2 (name = [] \/ name = L "-")) by tauto. split; [done|].
  destruct Hp as [_ Hf]. inversion Hf; subst. split; [|by apply default_opt_defaults].
  destruct (bool_decide _); [|done]. intros E. by apply canon_minus in E.
Qed.
Lemma parse_untagged tag f : (forall key d, ~ tagged tag f key d) -> fst (parseFormName f tag) = L "-".
Proof.
  intros H. destruct (tag_text_dec (f_tag f) tag) as [[text Ht]|Hn].
  - destruct (tag_parts_exists text) as (name & opts & Hp). destruct (name_of_text tag f text name opts Ht Hp) as [-> _].
    destruct (bool_decide_reflect (name = [] \/ name = L "-")) as [|Hno]; [done|]. exfalso.
    destruct (defaults_exists opts) as [d Hd]. eapply H. exists text, name, opts. split; [done|]. split; [done|].
    split; [tauto|]. split; [tauto|]. split; [exact Hd|reflexivity].
  - unfold parseFormName. rewrite (tag_get_none _ _ Hn). cbn. by rewrite andb_false_r.
Qed.
Lemma tagged_dec tag f : (exists key d, tagged tag f key d) \/ (forall key d, ~ tagged tag f key d).
Proof.
  destruct (tag_text_dec (f_tag f) tag) as [[text Ht]|Hn].
  - destruct (tag_parts_exists text) as (name & opts & Hp).
    destruct (decide (name = [] \/ name = L "-")) as [Hno|Hno].
    + right. intros key d (text' & name' & opts' & Ht' & Hp' & H1 & H2 & _).
      assert (text' = text) as -> by (rewrite <- (tag_get_text _ _ _ Ht), <- (tag_get_text _ _ _ Ht'); done).
      destruct (tag_parts_unique _ _ _ _ _ Hp Hp') as [-> ->]. tauto.
    + left. destruct (defaults_exists opts) as [d Hd]. eexists _, d. exists text, name, opts.
      split; [done|]. split; [done|]. split; [tauto|]. split; [tauto|]. split; [exact Hd|reflexivity].
  - right. intros key d (text & name & opts & Ht & _). by apply (Hn text).
Qed.
Lemma tagged_unique tag f key d key' d' : tagged tag f key d -> tagged tag f key' d' -> key = key' /\ d = d'.
Proof.
  intros H H'. apply parse_tagged in H as (<- & _ & <-), H' as (<- & _ & <-). done.
Qed.

Section Facts.
Context {D : Type} (G : golib D).
Notation goval := (goval D).

(** ** tryToSetValue2 *)
(** the two ways a field can be selected, or none *)
Lemma try_cases form (files : gmap gostr (list D)) tag f t ro v :
  (~ selected form files tag f /\ tryToSetValue2 G f t ro v form files tag = (v, BOk)) \/
  (exists vals key opt, texts form tag f vals /\ parseFormName f tag = (key, opt) /\
     tryToSetValue2 G f t ro v form files tag =
       match t, vals with
       | TSlice e, _ :: _ =>
           match set_elems G opt (resolve G e) vals key with
           | (l, BOk) => put ro v (VSlice (Some l))
           | (_, o) => (v, o)
           end
       | _, s :: _ => setWithProperType2 G opt t ro s v key
       | _, [] => (v, BPanic (L "index out of range"))
       end) \/
  (exists fs key, uploads form files tag f fs /\
     (forall vals, ~ texts form tag f vals) /\
     tryToSetValue2 G f t ro v form files tag =
       match t, fs with
       | TSlice e, _ :: _ =>
           if file_ptr G e then put ro v (VSlice (Some (map (fun d => VPtr (Some (VOpaque d))) fs)))
           else (v, BErr (EFile key))
       | _, _ =>
           if file_ptr G t then
             match fs with
             | d :: _ => put ro v (VPtr (Some (VOpaque d)))
             | [] => (v, BPanic (L "index out of range"))
             end
           else (v, BErr (EFile key))
       end).
Proof.
  unfold tryToSetValue2. destruct (tagged_dec tag f) as [(key & d & Ht)|Hn].
  - destruct (parse_tagged _ _ _ _ Ht) as (E1 & E2 & E3). destruct (parseFormName f tag) as [name opt] eqn:Ep.
    cbn [fst snd] in E1, E3. subst name d. rewrite (proj2 (seqb_false key (L "-"))) by done.
    destruct (form !! key) as [vals|] eqn:Ef.
    + right. left. exists vals, key, opt. split; [exists key, (o_default opt); auto|done].
    + destruct (seqb_spec (o_default opt) []) as [Ed|Hd].
      * cbn [negb]. assert (forall vals, ~ texts form tag f vals) as Hnot.
        { intros vals (k & d & Ht' & H). destruct (tagged_unique _ _ _ _ _ _ Ht Ht') as [<- <-].
          destruct H as [H|(_ & H & _)]; [congruence|done]. }
        destruct (files !! key) as [fs|] eqn:Eff.
        -- right. right. exists fs, key. split; [|done]. exists key. by rewrite <- Ed.
        -- left. split; [|done]. intros [[vals H]|(fs & k & Ht' & _ & H)]; [by apply (Hnot vals)|].
           destruct (tagged_unique _ _ _ _ _ _ Ht Ht') as [<- _]. congruence.
      * cbn [negb]. right. left. exists [o_default opt], key, opt. split; [|done]. exists key, (o_default opt). auto.
  - left. pose proof (parse_untagged tag f Hn) as E. destruct (parseFormName f tag) as [name opt]. cbn [fst] in E. subst name.
    rewrite seqb_refl. split; [|done]. intros [(vals & key & d & H & _)|(fs & key & H & _)]; by apply Hn in H.
Qed.
Lemma try_unselected form (files : gmap gostr (list D)) tag f t ro v : ~ selected form files tag f ->
  tryToSetValue2 G f t ro v form files tag = (v, BOk).
Proof.
  intros H. destruct (try_cases form files tag f t ro v) as [[_ E]|[(vals & ? & ? & Ht & _)|(fs & ? & Hu & _)]]; [done| |].
  - exfalso. apply H. left. by exists vals.
  - exfalso. apply H. right. by exists fs.
Qed.
Lemma texts_unique form tag f vals vals' : texts form tag f vals -> texts form tag f vals' -> vals = vals'.
Proof.
  intros (k & d & Ht & H) (k' & d' & Ht' & H'). destruct (tagged_unique _ _ _ _ _ _ Ht Ht') as [<- <-].
  destruct H as [H|(H & _ & ->)], H' as [H'|(H' & _ & ->)]; congruence.
Qed.
Lemma try_texts form (files : gmap gostr (list D)) tag f t ro v vals : texts form tag f vals ->
  exists key opt, parseFormName f tag = (key, opt) /\
  tryToSetValue2 G f t ro v form files tag =
    match t, vals with
    | TSlice e, _ :: _ =>
        match set_elems G opt (resolve G e) vals key with
        | (l, BOk) => put ro v (VSlice (Some l))
        | (_, o) => (v, o)
        end
    | _, s :: _ => setWithProperType2 G opt t ro s v key
    | _, [] => (v, BPanic (L "index out of range"))
    end.
Proof.
  intros Ht. destruct (try_cases form files tag f t ro v) as [[H _]|[(vals' & key & opt & Ht' & E1 & E2)|(fs & key & _ & H & _)]].
  - exfalso. apply H. left. by exists vals.
  - rewrite (texts_unique _ _ _ _ _ Ht Ht'). by exists key, opt.
  - by apply H in Ht.
Qed.

(** ** The loop *)
Lemma map_fields_ok rec form files tag fs : forall vs vs',
  map_fields G rec form files tag fs vs = (vs', BOk) ->
  length vs' = length vs /\
  forall i f t v, fs !! i = Some (f, t) -> vs !! i = Some v ->
    exists v', vs' !! i = Some v' /\ field_step G rec form files tag f t v = (v', BOk).
Proof.
  induction fs as [|[f t] fs IH]; intros vs vs' E.
  - injection E as <-. split; [done|]. intros i f t v Hi. by rewrite lookup_nil in Hi.
  - destruct vs as [|v vs]; [injection E as <-; split; [done|]; intros i g u w _ Hi; by rewrite lookup_nil in Hi|].
    cbn [map_fields] in E. destruct (field_step G rec form files tag f t v) as [v' o] eqn:Es. destruct o; try discriminate.
    destruct (map_fields G rec form files tag fs vs) as [vs'' o] eqn:Er. injection E as <- ->.
    destruct (IH vs vs'' Er) as [H1 H2]. split; [cbn; lia|].
    intros i g u w Hi Hj. destruct i as [|i]; cbn in *.
    + injection Hi as -> ->. injection Hj as ->. by exists v'.
    + by apply (H2 i).
Qed.
Lemma map_fields_any rec form files tag fs : forall vs vs' o, length fs = length vs ->
  map_fields G rec form files tag fs vs = (vs', o) ->
  length vs' = length vs /\
  forall i f t v, fs !! i = Some (f, t) -> vs !! i = Some v ->
    exists v', vs' !! i = Some v' /\ (v' = v \/ v' = fst (field_step G rec form files tag f t v)).
Proof.
  induction fs as [|[f t] fs IH]; intros [|v vs] vs' o Hl E; try discriminate.
  - injection E as <- <-. split; [done|]. intros i f t v Hi. by rewrite lookup_nil in Hi.
  - cbn [map_fields] in E. destruct (field_step G rec form files tag f t v) as [v' o1] eqn:Es.
    assert ((o1 = BOk /\ exists vs'', map_fields G rec form files tag fs vs = (vs'', o) /\ vs' = v' :: vs'') \/ vs' = v' :: vs) as [(-> & vs'' & Er & ->)| ->].
    { destruct o1; [|right; by injection E as <- _..]. left. split; [done|].
      destruct (map_fields G rec form files tag fs vs) as [vs'' o2]. injection E as <- ->. by exists vs''. }
    + destruct (IH vs vs'' o ltac:(cbn in Hl; lia) Er) as [H1 H2]. split; [cbn; lia|].
      intros i g u w Hi Hj. destruct i as [|i]; cbn in *.
      * injection Hi as -> ->. injection Hj as ->. exists v'. split; [done|]. right. by rewrite Es.
      * by apply (H2 i).
    + split; [done|]. intros i g u w Hi Hj. destruct i as [|i]; cbn in *.
      * injection Hi as -> ->. injection Hj as ->. exists v'. split; [done|]. right. by rewrite Es.
      * exists w. split; [done|]. by left.
Qed.

(** ** Induction on types and values *)
Lemma gotype_induction (P : gotype -> Prop)
  (Hbase : forall t, match t with TStruct _ | TPtr _ | TSlice _ | TArray _ _ => False | _ => True end -> P t)
  (Hstruct : forall fs, Forall (fun ft => P (snd ft)) fs -> P (TStruct fs))
  (Hptr : forall e, P e -> P (TPtr e)) (Hslice : forall e, P e -> P (TSlice e)) (Harray : forall n e, P e -> P (TArray n e)) :
  forall t, P t.
Proof.
  fix IH 1. intros [ | | | | | | | |fs|e|e|n e| | | | | |]; try (apply Hbase; exact I).
  - apply Hstruct. induction fs as [|[f t] fs IHfs]; constructor; [apply IH|exact IHfs].
  - apply Hptr, IH.
  - apply Hslice, IH.
  - apply Harray, IH.
Qed.
Lemma wf_resolve (Hlib : wf_lib G) t : wf_type (TPtr t) -> wf_type (resolve G t).
Proof. destruct t; cbn; try done. Qed.
Lemma wf_resolve_slice (Hlib : wf_lib G) t : wf_type (TSlice t) -> wf_type (resolve G t).
Proof. destruct t; cbn; try done. Qed.
Lemma wf_fields fs : wf_type (TStruct fs) <-> Forall (fun ft => wf_type (snd ft)) fs.
Proof.
  cbn. induction fs as [|[f t] fs IH]; cbn; [split; [constructor|done]|]. rewrite Forall_cons, IH. done.
Qed.
Lemma zero_typed t : wf_type t -> typed G t (zero G t).
Proof.
  revert t. apply (gotype_induction (fun t => wf_type t -> typed G t (zero G t))).
  - intros [w|w| | |w| | | | | | | | | | | | |] Hb Hw; try done; cbn [zero]; try (constructor; done).
    + constructor. cbn [wf_type] in Hw. rewrite !elem_of_cons in Hw.
      destruct Hw as [->|[->|[->|[->|Hw]]]]; [vm_compute; split; congruence..|by apply elem_of_nil in Hw].
    + constructor. cbn [wf_type] in Hw. rewrite !elem_of_cons in Hw.
      destruct Hw as [->|[->|[->|[->|Hw]]]]; [vm_compute; split; congruence..|by apply elem_of_nil in Hw].
  - intros fs H Hw. apply wf_fields in Hw. cbn [zero]. constructor.
    induction fs as [|[f t] fs IH]; cbn; constructor; inversion H; inversion Hw; subst; auto.
  - intros e _ _. constructor.
  - intros e _ _. constructor.
  - intros n e IH Hw. cbn [zero]. constructor; [apply replicate_length|]. apply Forall_replicate. by apply IH.
Qed.

(** ** One field *)
Lemma step_struct rec form files tag f fs v : open_field f -> ~ selected form files tag f ->
  field_step G rec form files tag f (TStruct fs) v = rec (TStruct fs) v.
Proof.
  intros Ho Hs. unfold field_step.
  assert (negb (f_exported f) && negb (f_anon f) = false) as -> by (destruct Ho as [->| ->]; [done|by rewrite andb_false_r]).
  cbv zeta. cbn [kind_struct andb orb].
  destruct v as [| | | | |[|]| | | | |]; destruct (rec (TStruct fs) _) as [v' o]; destruct o; rewrite ?try_unselected by done; done.
Qed.
Lemma step_new rec form files tag f e fs : f_exported f = true -> ~ selected form files tag f -> resolve G e = TStruct fs ->
  field_step G rec form files tag f (TPtr e) (VPtr None) =
    (VPtr (Some (fst (rec (resolve G e) (zero G (resolve G e))))), snd (rec (resolve G e) (zero G (resolve G e)))).
Proof.
  intros Hx Hs E. unfold field_step. rewrite Hx. cbn [negb andb]. cbv zeta. unfold file_ptr. rewrite E. cbn [negb andb kind_struct].
  rewrite orb_true_r. cbn [orb]. destruct (rec (TStruct fs) _) as [v' o]. destruct o; rewrite ?try_unselected by done; done.
Qed.
Lemma step_embedded rec form files tag f e v : f_anon f = true -> ~ selected form files tag f ->
  field_step G rec form files tag f (TPtr e) (VPtr (Some v)) = rec (TPtr e) (VPtr (Some v)).
Proof.
  intros Ha Hs. unfold field_step. rewrite Ha. rewrite andb_false_r. cbv zeta. rewrite orb_true_r.
  destruct (rec (TPtr e) _) as [v' o]. destruct o; rewrite ?try_unselected by done; done.
Qed.
Lemma step_leaf rec form files tag f t v : f_exported f = true -> leaf G f t v ->
  field_step G rec form files tag f t v = tryToSetValue2 G f t false v form files tag.
Proof.
  intros Hx (Ha & Hs & Hf & Hp). unfold field_step. rewrite Hx, Ha. cbn [negb andb orb]. cbv zeta.
  assert (kind_struct t && match t with TTime => false | _ => true end = false) as Hk.
  { destruct t; try done. by destruct (Hs fs). }
  rewrite Hk. cbn [orb]. destruct t as [| | | | | | | | |e| | | | | | | |]; try reflexivity.
  destruct v as [| | | | |[|]| | | | |]; try reflexivity.
  assert (negb (file_ptr G (TPtr e)) && kind_struct (resolve G e) = false) as ->; [|reflexivity].
  destruct (Hp e eq_refl eq_refl) as [H1 H2]. unfold file_ptr.
  destruct (resolve G e) as [| | | | | | | |fs'| | | | | | | | |]; try done; try (by rewrite andb_false_r). by destruct (H1 fs').
Qed.
Lemma step_closed rec form files tag f t v : ~ open_field f -> field_step G rec form files tag f t v = (v, BOk).
Proof.
  intros H. unfold field_step, open_field in *. destruct (f_exported f), (f_anon f); try done; exfalso; apply H; auto.
Qed.

(** ** Places *)
Lemma mapForm_struct fuel form files tag fs vs :
  _mapForm G (S fuel) form files tag (TStruct fs) (VStruct vs) =
  (let '(vs, o) := map_fields G (_mapForm G fuel form files tag) form files tag fs vs in (VStruct vs, o)).
Proof. reflexivity. Qed.
Lemma mapForm_ptr fuel form files tag e fs v : resolve G e = TStruct fs ->
  _mapForm G fuel form files tag (TPtr e) (VPtr (Some v)) =
  (VPtr (Some (fst (_mapForm G fuel form files tag (TStruct fs) v))), snd (_mapForm G fuel form files tag (TStruct fs) v)).
Proof.
  intros E. destruct fuel as [|fuel]; [done|]. cbn [_mapForm]. rewrite E. destruct v; try done.
  by destruct (map_fields _ _ _ _ _ _ _) as [vs' o].
Qed.
Lemma mapForm_shape fuel form files tag fs vs : exists vs', fst (_mapForm G fuel form files tag (TStruct fs) (VStruct vs)) = VStruct vs'.
Proof.
  destruct fuel as [|fuel]; [by exists vs|]. rewrite mapForm_struct. destruct (map_fields _ _ _ _ _ _ _) as [vs' o]. by exists vs'.
Qed.
Lemma place_inv t v p fl f u w : place G t v p fl f u w ->
  exists fs vs i p', t = TStruct fs /\ v = VStruct vs /\ p = i :: p' .
Proof. intros H. inversion H; subst; eauto 10. Qed.
Lemma typed_struct_inv fs vs : typed G (TStruct fs) (VStruct vs) -> Forall2 (fun ft v => typed G (snd ft) v) fs vs.
Proof. intros H. by inversion H; subst. Qed.
Lemma typed_ptr_inv e v : typed G (TPtr e) (VPtr (Some v)) -> typed G (resolve G e) v.
Proof. intros H. by inversion H; subst. Qed.
Lemma typed_field fs vs i f t v : typed G (TStruct fs) (VStruct vs) -> fs !! i = Some (f, t) -> vs !! i = Some v -> typed G t v.
Proof. intros H H1 H2. apply typed_struct_inv in H. by apply (Forall2_lookup_lr _ _ _ i (f, t) v) in H. Qed.
Lemma wf_field fs i f t : wf_type (TStruct fs) -> fs !! i = Some (f, t) -> wf_type t.
Proof. intros H H1. apply wf_fields in H. by apply (Forall_lookup_1 _ _ i (f, t)) in H. Qed.

(** on success, what a place holds is what the round of the loop for its field left there *)
Lemma place_ok (Hlib : wf_lib G) form files tag t v p fl f u w : place G t v p fl f u w ->
  wf_type t -> typed G t v -> Forall (fun g => ~ selected form files tag g) fl ->
  forall fuel v', _mapForm G fuel form files tag t v = (v', BOk) ->
  typed G u w /\ wf_type u /\
  exists fuel' w', value_at v' p = Some w' /\ field_step G (_mapForm G fuel' form files tag) form files tag f u w = (w', BOk).
Proof.
  induction 1 as [fs vs i f t v H1 H2|fs vs i f t v p fl g u w H1 H2 Ho Hp IH|fs vs i f e p fl g u w H1 H2 Hx Hp IH|fs vs i f e v p fl g u w H1 H2 Ha Hp IH];
    intros Hwf Hty Hfl fuel v' E; (destruct fuel as [|fuel]; [done|]); rewrite mapForm_struct in E;
    destruct (map_fields _ _ _ _ _ _ _) as [vs' o] eqn:Em; injection E as <- ->;
    pose proof (Forall2_length _ _ _ (typed_struct_inv _ _ Hty)) as Hlen;
    destruct (map_fields_ok _ _ _ _ _ _ _ Em) as [Hl' Hstep];
    destruct (Hstep i _ _ _ H1 H2) as (v1 & Hv1 & Es).
  - split; [by apply (typed_field fs vs i f t v)|]. split; [by apply (wf_field fs i f t)|].
    exists fuel, v1. split; [|done]. cbn [value_at]. by rewrite Hv1.
  - apply Forall_cons in Hfl as [Hf Hfl]. destruct (place_inv _ _ _ _ _ _ _ Hp) as (fs1 & vs1 & j & p' & -> & -> & ->).
    rewrite step_struct in Es by done.
    destruct (IH (wf_field _ _ _ _ Hwf H1) (typed_field _ _ _ _ _ _ Hty H1 H2) Hfl _ _ Es) as (Hu & Hu' & fuel' & w' & Hw & Hs).
    split; [done|]. split; [done|]. exists fuel', w'. split; [|done]. cbn [value_at]. by rewrite Hv1.
  - apply Forall_cons in Hfl as [Hf Hfl]. destruct (place_inv _ _ _ _ _ _ _ Hp) as (fs1 & vs1 & j & p' & E1 & E2 & ->).
    rewrite (step_new _ _ _ _ _ _ fs1) in Es by done. injection Es as <- Es.
    assert (wf_type (resolve G e)) as Hwe by (apply wf_resolve; [done|by apply (wf_field fs i f)]).
    destruct (IH Hwe (zero_typed _ Hwe) Hfl fuel (fst (_mapForm G fuel form files tag (resolve G e) (zero G (resolve G e)))))
      as (Hu & Hu' & fuel' & w' & Hw & Hs); [rewrite <- Es; by destruct (_mapForm _ _ _ _ _ _ _)|].
    split; [done|]. split; [done|]. exists fuel', w'. split; [|done]. cbn [value_at]. rewrite Hv1.
    rewrite E2, E1 in Hw |- *. destruct (mapForm_shape fuel form files tag fs1 vs1) as [vs2 Evs]. rewrite Evs in Hw |- *. exact Hw.
  - apply Forall_cons in Hfl as [Hf Hfl]. destruct (place_inv _ _ _ _ _ _ _ Hp) as (fs1 & vs1 & j & p' & E1 & -> & ->).
    rewrite step_embedded in Es by done. rewrite (mapForm_ptr _ _ _ _ _ fs1) in Es by done. injection Es as <- Es.
    assert (wf_type (resolve G e)) as Hwe by (apply wf_resolve; [done|by apply (wf_field fs i f)]).
    pose proof (typed_ptr_inv _ _ (typed_field _ _ _ _ _ _ Hty H1 H2)) as Hte.
    destruct (IH Hwe Hte Hfl fuel (fst (_mapForm G fuel form files tag (TStruct fs1) (VStruct vs1))))
      as (Hu & Hu' & fuel' & w' & Hw & Hs); [rewrite E1, <- Es; by destruct (_mapForm _ _ _ _ _ _ _)|].
    split; [done|]. split; [done|]. exists fuel', w'. split; [|done]. cbn [value_at]. rewrite Hv1.
    destruct (mapForm_shape fuel form files tag fs1 vs1) as [vs2 Evs]. rewrite Evs in Hw |- *. exact Hw.
Qed.
Lemma place_value t v p fl f u w : place G t v p fl f u w -> value_at v p = Some w \/ value_at v p = None.
Proof.
  induction 1 as [fs vs i f t v H1 H2|fs vs i f t v p fl g u w H1 H2 Ho Hp IH|fs vs i f e p fl g u w H1 H2 Hx Hp IH|fs vs i f e v p fl g u w H1 H2 Ha Hp IH];
    cbn [value_at]; rewrite H2; [by left|done| |].
  - right. by destruct (place_inv _ _ _ _ _ _ _ Hp) as (fs1 & vs1 & j & p' & E1 & E2 & ->).
  - by destruct (place_inv _ _ _ _ _ _ _ Hp) as (fs1 & vs1 & j & p' & E1 & -> & ->).
Qed.
(** whatever the outcome, a place holds its old value or what the round of the loop left there *)
Lemma place_any (Hlib : wf_lib G) form files tag t v p fl f u w : place G t v p fl f u w ->
  wf_type t -> typed G t v -> Forall (fun g => ~ selected form files tag g) fl ->
  forall fuel w', value_at (fst (_mapForm G fuel form files tag t v)) p = Some w' ->
  w' = w \/ exists fuel', w' = fst (field_step G (_mapForm G fuel' form files tag) form files tag f u w).
Proof.
  induction 1 as [fs vs i f t v H1 H2|fs vs i f t v p fl g u w H1 H2 Ho Hp IH|fs vs i f e p fl g u w H1 H2 Hx Hp IH|fs vs i f e v p fl g u w H1 H2 Ha Hp IH];
    intros Hwf Hty Hfl fuel w' Hw;
    (destruct fuel as [|fuel]; [left; cbn [_mapForm fst value_at] in Hw; rewrite H2 in Hw|rewrite mapForm_struct in Hw]).
  - congruence.
  - pose proof (Forall2_length _ _ _ (typed_struct_inv _ _ Hty)) as Hlen. destruct (map_fields _ _ _ _ _ _ _) as [vs' o] eqn:Em.
    destruct (map_fields_any _ _ _ _ _ _ _ _ Hlen Em) as [Hl' Hstep]. destruct (Hstep i _ _ _ H1 H2) as (v1 & Hv1 & Es).
    cbn [fst value_at] in Hw. rewrite Hv1 in Hw. injection Hw as <-. destruct Es as [->| ->]; [by left|]. right. by exists fuel.
  - destruct (place_value _ _ _ _ _ _ _ Hp); congruence.
  - pose proof (Forall2_length _ _ _ (typed_struct_inv _ _ Hty)) as Hlen. destruct (map_fields _ _ _ _ _ _ _) as [vs' o] eqn:Em.
    destruct (map_fields_any _ _ _ _ _ _ _ _ Hlen Em) as [Hl' Hstep]. destruct (Hstep i _ _ _ H1 H2) as (v1 & Hv1 & Es).
    cbn [fst value_at] in Hw. rewrite Hv1 in Hw. destruct Es as [->| ->]; [left; destruct (place_value _ _ _ _ _ _ _ Hp); congruence|].
    apply Forall_cons in Hfl as [Hf Hfl]. destruct (place_inv _ _ _ _ _ _ _ Hp) as (fs1 & vs1 & j & p' & -> & -> & ->).
    rewrite step_struct in Hw by done. by apply (IH (wf_field _ _ _ _ Hwf H1) (typed_field _ _ _ _ _ _ Hty H1 H2) Hfl fuel).
  - exfalso. by destruct (place_inv _ _ _ _ _ _ _ Hp) as (fs1 & vs1 & j & p' & E1 & E2 & ->).
  - pose proof (Forall2_length _ _ _ (typed_struct_inv _ _ Hty)) as Hlen. destruct (map_fields _ _ _ _ _ _ _) as [vs' o] eqn:Em.
    destruct (map_fields_any _ _ _ _ _ _ _ _ Hlen Em) as [Hl' Hstep]. destruct (Hstep i _ _ _ H1 H2) as (v1 & Hv1 & Es).
    cbn [fst value_at] in Hw. rewrite Hv1 in Hw. destruct (place_inv _ _ _ _ _ _ _ Hp) as (fs1 & vs1 & j & p' & E1 & E2 & ->).
    destruct Es as [->| ->]; [done|]. apply Forall_cons in Hfl as [Hf Hfl].
    rewrite (step_new _ _ _ _ _ _ fs1) in Hw by done. cbn [fst] in Hw.
    assert (wf_type (resolve G e)) as Hwe by (apply wf_resolve; [done|by apply (wf_field fs i f)]).
    apply (IH Hwe (zero_typed _ Hwe) Hfl fuel).
    rewrite E2, E1 in Hw |- *. destruct (mapForm_shape fuel form files tag fs1 vs1) as [vs2 Evs]. rewrite Evs in Hw |- *. exact Hw.
  - destruct (place_inv _ _ _ _ _ _ _ Hp) as (fs1 & vs1 & j & p' & E1 & -> & ->). cbn [value_at] in Hw.
    destruct (place_value _ _ _ _ _ _ _ Hp) as [Hv|Hv]; cbn [value_at] in Hv; congruence.
  - pose proof (Forall2_length _ _ _ (typed_struct_inv _ _ Hty)) as Hlen. destruct (map_fields _ _ _ _ _ _ _) as [vs' o] eqn:Em.
    destruct (map_fields_any _ _ _ _ _ _ _ _ Hlen Em) as [Hl' Hstep]. destruct (Hstep i _ _ _ H1 H2) as (v1 & Hv1 & Es).
    cbn [fst value_at] in Hw. rewrite Hv1 in Hw. destruct (place_inv _ _ _ _ _ _ _ Hp) as (fs1 & vs1 & j & p' & E1 & -> & ->).
    destruct Es as [->| ->].
    { left. destruct (place_value _ _ _ _ _ _ _ Hp) as [Hv|Hv]; cbn [value_at] in Hv, Hw; congruence. }
    apply Forall_cons in Hfl as [Hf Hfl]. rewrite step_embedded in Hw by done. rewrite (mapForm_ptr _ _ _ _ _ fs1) in Hw by done. cbn [fst] in Hw.
    assert (wf_type (resolve G e)) as Hwe by (apply wf_resolve; [done|by apply (wf_field fs i f)]).
    pose proof (typed_ptr_inv _ _ (typed_field _ _ _ _ _ _ Hty H1 H2)) as Hte.
    apply (IH Hwe Hte Hfl fuel). rewrite E1.
    destruct (mapForm_shape fuel form files tag fs1 vs1) as [vs2 Evs]. rewrite Evs in Hw |- *. exact Hw.
Qed.

(** ** Numbers *)
Lemma parse_int_ok s z : parse_int 64 s = (z, ErrNone) <-> decimal s z /\ fits_int 64 z.
Proof.
  unfold fits_int. change (2 ^ (Z.of_N 64 - 1))%Z with (2 ^ 63)%Z. split.
  - intros E. destruct (decimal_dec s) as [[z' Hz]|Hn].
    + rewrite (parse_int_decimal 64 s z') in E by (done || lia).
      change (2 ^ (Z.of_N 64 - 1))%Z with (2 ^ 63)%Z in E.
      destruct (bool_decide_reflect (- 2 ^ 63 <= z' <= 2 ^ 63 - 1)%Z) as [Hr|]; [|discriminate].
      injection E as E. unfold clamp in E. assert (z' = z) as -> by lia. split; [done|lia].
    + exfalso. destruct (digits_span (snd (sign_body s))) as (ds & r & E0 & Hd & Hr).
      rewrite (parse_int_spec 64 s ds r) in E by (done || lia). cbv zeta in E.
      destruct (bool_decide_reflect (ds ++ r = [])) as [|Hne]; [done|].
      destruct (_ <? dec_value ds)%Z; [done|]. destruct r as [|c r]; [|done].
      rewrite app_nil_r in E0, Hne. apply (Hn (signed (fst (sign_body s)) (dec_value ds))). apply decimal_iff. by rewrite E0.
  - intros [Hd Hr]. rewrite (parse_int_decimal 64 s z) by (done || lia).
    change (2 ^ (Z.of_N 64 - 1))%Z with (2 ^ 63)%Z. rewrite bool_decide_eq_true_2 by lia. f_equal. unfold clamp. lia.
Qed.
Lemma parse_uint_ok s n : parse_uint 64 s = (n, ErrNone) <-> udecimal s (Z.of_N n) /\ fits_uint 64 (Z.of_N n).
Proof.
  unfold fits_uint. change (2 ^ Z.of_N 64)%Z with (2 ^ 64)%Z. split.
  - intros E. destruct (digits_span s) as (ds & r & -> & Hd & Hr).
    destruct (decide (ds ++ r = [])) as [Ee|Hne]; [by rewrite Ee in E|].
    rewrite parse_uint_spec in E by (done || lia). change (2 ^ Z.of_N 64)%Z with (2 ^ 64)%Z in E.
    destruct (_ <? dec_value ds)%Z eqn:El; [done|]. apply Z.ltb_ge in El. destruct r as [|c r]; [|done].
    rewrite app_nil_r in *. injection E as <-. assert (0 <= dec_value ds)%Z by (by apply dec_value_ge).
    rewrite Z2N.id by done. split; [done|]. lia.
  - intros [Hd Hr]. rewrite (parse_uint_decimal 64 s (Z.of_N n)) by (done || lia).
    change (2 ^ Z.of_N 64)%Z with (2 ^ 64)%Z. rewrite bool_decide_eq_true_2 by lia. f_equal. unfold clamp.
    rewrite Z.min_r, Z.max_r by lia. apply N2Z.id.
Qed.
Lemma wrap_int_fits w z : w ∈ [8; 16; 32; 64]%N -> fits_int w z -> wrap_int w z = z.
Proof.
  intros Hw. unfold fits_int, wrap_int. cbv zeta.
  assert (2 ^ Z.of_N w = 2 * 2 ^ (Z.of_N w - 1) /\ 0 < 2 ^ (Z.of_N w - 1))%Z as [-> Hp].
  { rewrite !elem_of_cons in Hw. destruct Hw as [->|[->|[->|[->|Hw]]]]; [vm_compute; split; reflexivity..|by apply elem_of_nil in Hw]. }
  intros H. set (p := (2 ^ (Z.of_N w - 1))%Z) in *. clearbody p.
  replace (2 * p / 2)%Z with p by (rewrite Z.mul_comm, Z.div_mul; lia).
  destruct (Z_lt_ge_dec z 0) as [Hn|Hn].
  - assert (z mod (2 * p) = z + 2 * p)%Z as -> by (symmetry; apply (Z.mod_unique z (2 * p) (-1)); lia).
    assert ((z + 2 * p <? p)%Z = false) as -> by (apply Z.ltb_ge; lia). lia.
  - rewrite Z.mod_small by lia. assert ((z <? p)%Z = true) as -> by (apply Z.ltb_lt; lia). done.
Qed.
Lemma wrap_uint_fits w z : fits_uint w z -> wrap_uint w z = z.
Proof. unfold fits_uint, wrap_uint. intros H. apply Z.mod_small. lia. Qed.
Lemma number_parse s z : parse_int 64 (if seqb s [] then L "0" else s) = (z, ErrNone) <-> number s z /\ fits_int 64 z.
Proof.
  unfold number. destruct (seqb_spec s []) as [->|Hne].
  - split.
    + intros E. vm_compute in E. injection E as <-. split; [by right|]. vm_compute. split; congruence.
    + intros [[H|[_ ->]] _]; [|vm_compute; reflexivity]. exfalso. apply decimal_iff in H as (H & _). done.
  - rewrite parse_int_ok. split; intros [H1 H2]; (split; [|done]); [by left|]. by destruct H1 as [|[? _]].
Qed.
Lemma unumber_parse s n : parse_uint 64 (if seqb s [] then L "0" else s) = (n, ErrNone) <-> unumber s (Z.of_N n) /\ fits_uint 64 (Z.of_N n).
Proof.
  unfold unumber. destruct (seqb_spec s []) as [->|Hne].
  - split.
    + intros E. vm_compute in E. injection E as <-. split; [by right|]. vm_compute. split; congruence.
    + intros [[H|[_ H]] _]; [by destruct H|]. assert (n = 0%N) as -> by lia. vm_compute. reflexivity.
  - rewrite parse_uint_ok. split; intros [H1 H2]; (split; [|done]); [by left|]. by destruct H1 as [|[? _]].
Qed.
Lemma parse_bool_truth s b : parse_bool (if seqb s [] then L "false" else s) = (b, true) <-> truth s b.
Proof.
  assert (forall l, existsb (seqb s) l = true <-> s ∈ l) as Hex.
  { intros l. rewrite existsb_exists. split.
    - intros (x & Hx & E). apply seqb_true in E as ->. by apply elem_of_list_In.
    - intros H. exists s. split; [by apply elem_of_list_In|apply seqb_refl]. }
  destruct (seqb_spec s []) as [->|Hne].
  { change (parse_bool (L "false")) with (false, true). unfold truth. destruct b.
    - split; [done|]. intros H. apply (bool_decide_eq_true _) in H. vm_compute in H. done.
    - split; [|done]. intros _. apply (bool_decide_eq_true _). vm_compute. done. }
  unfold parse_bool, truth.
  destruct (existsb (seqb s) [L "1"; L "t"; L "T"; L "true"; L "TRUE"; L "True"]) eqn:E1.
  - apply Hex in E1. destruct b; [done|]. split; [done|]. intros H. exfalso. rewrite !elem_of_cons in E1.
    destruct E1 as [->|[->|[->|[->|[->|[->|E1]]]]]]; try (apply (bool_decide_eq_true _) in H; vm_compute in H; done).
    by apply elem_of_nil in E1.
  - assert (s ∉ [L "1"; L "t"; L "T"; L "true"; L "TRUE"; L "True"]) as Hn by (intros H; apply Hex in H; congruence).
    destruct (existsb (seqb s) [L "0"; L "f"; L "F"; L "false"; L "FALSE"; L "False"]) eqn:E2.
    + apply Hex in E2. destruct b; [by split|]. split; [|done]. intros _. rewrite !elem_of_cons in *. tauto.
    + assert (s ∉ [L "0"; L "f"; L "F"; L "false"; L "FALSE"; L "False"]) as Hm by (intros H; apply Hex in H; congruence).
      destruct b; [by split|]. split; [done|]. intros H. exfalso. apply Hm. rewrite !elem_of_cons in *. tauto.
Qed.

(** ** Setting a value *)
Lemma fits_int_dec w z : Decision (fits_int w z).
Proof. unfold fits_int. apply _. Defined.
Lemma fits_uint_dec w z : Decision (fits_uint w z).
Proof. unfold fits_uint. apply _. Defined.
Lemma scalar_ok opt t s v name v' : plain t -> wf_type t -> typed G t v -> set_scalar G opt t false s v name = (v', BOk) ->
  carries G t v s v' \/ too_big G t s \/ (clears G t v s /\ v' = v).
Proof.
  intros Hp Hw Ht E. destruct t as [w|w| | |w| | | | | | | | | | | | |]; try done; cbn [set_scalar put] in E.
  - destruct (parse_int 64 _) as [z e] eqn:Ep. destruct e; try done. injection E as <-. apply number_parse in Ep as [Hn Hr].
    destruct (fits_int_dec w z) as [Hf|Hf]; [|right; left; by apply (too_big_int G w s z)].
    left. rewrite wrap_int_fits by done. by constructor.
  - destruct (parse_uint 64 _) as [n e] eqn:Ep. destruct e; try done. injection E as <-. apply unumber_parse in Ep as [Hn Hr].
    destruct (fits_uint_dec w (Z.of_N n)) as [Hf|Hf]; [|right; left; by apply (too_big_uint G w s (Z.of_N n))].
    left. rewrite wrap_uint_fits by done. by constructor.
  - destruct (parse_int 64 _) as [z e] eqn:Ep. destruct e; try done. injection E as <-. apply number_parse in Ep as [Hn Hr].
    left. rewrite wrap_int_fits by (done || set_solver). by constructor.
  - destruct (parse_bool _) as [b ok] eqn:Ep. destruct ok; [|by destruct b]. apply parse_bool_truth in Ep.
    destruct b; injection E as <-; [left; by constructor|]. inversion Ht as [| | |b| | | | | | | | | | | |]; subst; [|done].
    destruct b; [|left; by constructor]. right. right. split; [by constructor|done].
  - destruct (g_float G w _) as [x|] eqn:Ex; [|done]. injection E as <-. left. constructor.
    destruct (seqb_spec s []) as [->|]; [by rewrite bool_decide_eq_true_2|by rewrite bool_decide_eq_false_2].
  - injection E as <-. left. constructor.
Qed.
Lemma proper_ok (Hlib : wf_lib G) opt t s v name v' : plain_field G t -> wf_type t -> typed G t v ->
  setWithProperType2 G opt t false s v name = (v', BOk) ->
  carries G t v s v' \/ too_big G t s \/ (clears G t v s /\ v' = v).
Proof.
  intros [Hp|(e & -> & Hp)] Hw Ht E.
  - assert (setWithProperType2 G opt t false s v name = set_scalar G opt t false s v name) as Hq by (by destruct t).
    rewrite Hq in E. by apply (scalar_ok opt t s v name v').
  - apply (wf_resolve Hlib) in Hw. cbn [setWithProperType2] in E. inversion Ht as [| | | | |? ? Hx| |? |? ? Ht'| | | | | | |]; subst; [done| |].
    + destruct (set_scalar _ _ _ _ _ _ _) as [w o] eqn:Es. injection E as <- ->.
      destruct (scalar_ok _ _ _ _ _ _ Hp Hw (zero_typed _ Hw) Es) as [H|[H|[H _]]].
      * left. by constructor.
      * right. left. by constructor.
      * exfalso. destruct (resolve G e); try done; inversion H.
    + destruct (set_scalar _ _ _ _ _ _ _) as [w o] eqn:Es. injection E as <- ->.
      destruct (scalar_ok _ _ _ _ _ _ Hp Hw Ht' Es) as [H|[H|[H ->]]].
      * left. by constructor.
      * right. left. by constructor.
      * right. right. split; [by constructor|done].
Qed.
Lemma elems_ok opt e vals name : forall l, set_elems G opt e vals name = (l, BOk) ->
  Forall2 (fun s w => setWithProperType2 G opt e false s (zero G e) name = (w, BOk)) vals l.
Proof.
  induction vals as [|s vals IH]; intros l E; cbn [set_elems] in E; [injection E as <-; constructor|].
  destruct (setWithProperType2 _ _ _ _ _ _ _) as [w o] eqn:Es. destruct o; try done.
  destruct (set_elems G opt e vals name) as [l' o]. injection E as <- ->. constructor; [done|]. by apply IH.
Qed.

(** ** Times *)
Lemma tag_value_get f key text : tag_value f key text <-> tag_get (f_tag f) key = text.
Proof.
  split.
  - intros [H|[-> H]]; [by apply tag_get_text|by apply tag_get_none].
  - intros <-. destruct (tag_text_dec (f_tag f) key) as [[text Ht]|Hn].
    + left. by rewrite (tag_get_text _ _ _ Ht).
    + right. split; [by apply tag_get_none|done].
Qed.
Lemma any_case_lower s word : any_case s word <-> to_lower s = word.
Proof.
  unfold any_case, to_lower. split.
  - induction 1 as [|a b s word H _ IH]; [done|]. cbn. by rewrite H, IH.
  - intros <-. induction s as [|a s IH]; cbn; constructor; done.
Qed.
Lemma bool_true_truth s : fst (parse_bool s) = true <-> truth s true.
Proof.
  rewrite <- parse_bool_truth. destruct (seqb_spec s []) as [->|Hne].
  - vm_compute. split; discriminate.
  - destruct (parse_bool s) as [b ok] eqn:E. cbn [fst]. split; [|by intros [= -> _]]. intros ->. unfold parse_bool in E.
    destruct (existsb _ _); [by injection E as <-|]. by destruct (existsb _ _).
Qed.
Lemma time_ok f tag s d : time_value G s (snd (parseFormName f tag)) = inl d <-> instant G f s d.
Proof.
  set (opt := snd (parseFormName f tag)).
  assert (o_format opt = tag_get (f_tag f) (L "time_format") /\ o_utc opt = tag_get (f_tag f) (L "time_utc") /\
          o_loc opt = tag_get (f_tag f) (L "time_location")) as (Ef & Eu & El).
  { unfold opt, parseFormName. by destruct (head _ _). }
  clearbody opt. unfold time_value. cbv zeta. rewrite Ef, Eu, El.
  set (fmt := tag_get (f_tag f) (L "time_format")).
  assert (tag_value f (L "time_format") fmt) as Hfmt by (by apply tag_value_get).
  assert (forall fmt', tag_value f (L "time_format") fmt' -> fmt' = fmt) as Hu by (intros fmt' H; by apply tag_value_get in H).
  clearbody fmt. set (loc := tag_get (f_tag f) (L "time_location")).
  assert (tag_value f (L "time_location") loc) as Hloc by (by apply tag_value_get).
  assert (forall l', tag_value f (L "time_location") l' -> l' = loc) as Hlu by (intros l' H; by apply tag_value_get in H).
  clearbody loc. set (utc := tag_get (f_tag f) (L "time_utc")).
  assert (tag_value f (L "time_utc") utc) as Hutc by (by apply tag_value_get).
  assert (forall l', tag_value f (L "time_utc") l' -> l' = utc) as Huu by (intros l' H; by apply tag_value_get in H).
  clearbody utc.
  assert (forall w, w <> [] -> to_lower RFC3339 <> w -> to_lower (if seqb fmt [] then RFC3339 else fmt) = w <-> any_case fmt w) as Hcase.
  { intros w Hw Hr. rewrite any_case_lower. destruct (seqb_spec fmt []) as [->|Hne]; [|done]. cbn. split; congruence. }
  assert (to_lower (if seqb fmt [] then RFC3339 else fmt) = L "unix" <-> any_case fmt (L "unix")) as H1 by (apply Hcase; [done|vm_compute; discriminate]).
  assert (to_lower (if seqb fmt [] then RFC3339 else fmt) = L "unixnano" <-> any_case fmt (L "unixnano")) as H2 by (apply Hcase; [done|vm_compute; discriminate]).
  clear Hcase. set (tf := to_lower _) in *.
  assert (any_case fmt (L "unix") -> any_case fmt (L "unixnano") -> False) as Hex.
  { rewrite !any_case_lower. intros -> E. apply (f_equal length) in E. done. }
  destruct (seqb_spec tf (L "unix")) as [E1|E1]; [|destruct (seqb_spec tf (L "unixnano")) as [E2|E2]]; cbn [orb].
  - apply H1 in E1. assert (seqb tf (L "unixnano") = false) as -> by (apply seqb_false; intros E2; apply H2 in E2; by apply Hex).
    destruct (parse_int 64 s) as [z e] eqn:Ep. split.
    + destruct e; try discriminate. apply parse_int_ok in Ep as [Hd Hr]. rewrite Z.quot_1_r, Z.rem_1_r. intros [= <-]. by apply (instant_unix G f fmt).
    + intros H. inversion H as [fmt' s' z' Ht Hc Hd Hr|fmt' s' z' sec ns Ht Hc|fmt' Ht Hc|fmt' s' z' d' Ht Hc]; subst; apply Hu in Ht; subst fmt'.
      * rewrite (proj2 (parse_int_ok s z')) in Ep by done. injection Ep as <- <-. by rewrite Z.quot_1_r, Z.rem_1_r.
      * by destruct Hex.
      * done.
      * done.
  - apply H2 in E2. destruct (parse_int 64 s) as [z e] eqn:Ep. split.
    + destruct e; try discriminate. apply parse_int_ok in Ep as [Hd Hr]. intros [= <-].
      apply (instant_nano G f fmt s z); [done|done|done|done| | |].
      * pose proof (Z.quot_rem' z 1000000000). lia.
      * pose proof (Z.rem_bound_abs z 1000000000). lia.
      * by apply Z.rem_sign_mul.
    + intros H. inversion H as [fmt' s' z' Ht Hc Hd Hr|fmt' s' z' sec ns Ht Hc Hd Hr Ez Hb Hs|fmt' Ht Hc Hc'|fmt' s' z' d' Ht Hc Hc']; subst; apply Hu in Ht; subst fmt'.
      * by destruct Hex.
      * rewrite (proj2 (parse_int_ok s _)) in Ep by done. injection Ep as <- <-.
        assert (Z.quot (sec * 1000000000 + ns) 1000000000 = sec /\ Z.rem (sec * 1000000000 + ns) 1000000000 = ns) as [-> ->]; [|done].
        assert (forall n, 0 <= n * (sec * 1000000000 + n) -> - 1000000000 < n < 1000000000 ->
           Z.quot (sec * 1000000000 + n) 1000000000 = sec /\ Z.rem (sec * 1000000000 + n) 1000000000 = n)%Z as HH; [|by apply HH].
        clear. intros n Hs Hb. assert (Z.rem (sec * 1000000000 + n) 1000000000 = n) as Er.
        { rewrite Z.add_comm, Z.rem_add by lia. apply Z.rem_small_iff; [lia|]. lia. }
        split; [|done]. pose proof (Z.quot_rem' (sec * 1000000000 + n) 1000000000). lia.
      * done.
      * done.
  - assert (~ any_case fmt (L "unix")) as N1 by (intros H; by apply H1 in H). assert (~ any_case fmt (L "unixnano")) as N2 by (intros H; by apply H2 in H).
    assert ((if seqb fmt [] then RFC3339 else fmt) = (if bool_decide (fmt = []) then L "2006-01-02T15:04:05Z07:00" else fmt)) as ->.
    { destruct (seqb_spec fmt []) as [->|]; [by rewrite bool_decide_eq_true_2|by rewrite bool_decide_eq_false_2]. }
    destruct (seqb_spec s []) as [->|Hne].
    { split; [intros [= <-]; by apply (instant_empty G f fmt)|]. intros H.
      inversion H as [fmt' s' z' Ht Hc Hd Hr|fmt' s' z' sec ns Ht Hc Hd Hr Ez Hb Hs|fmt' Ht Hc Hc'|fmt' s' z' d' Ht Hc Hc']; subst; try done; apply Hu in Ht; by subst. }
    set (layout := if bool_decide (fmt = []) then _ else _). 
    assert (forall z, (if negb (seqb loc []) && negb (g_zone G loc) then None else Some (if negb (seqb loc []) then ZNamed loc else if fst (parse_bool utc) then ZUTC else ZLocal)) = Some z <-> in_zone G f z) as Hz.
    { intros z. destruct (seqb_spec loc []) as [->|Hl]; cbn [negb andb].
      - destruct (fst (parse_bool utc)) eqn:Eb.
        + apply bool_true_truth in Eb. split; [intros [= <-]; by apply (in_utc G f utc)|]. intros H. inversion H as [n Hn|s' Hl Hs' Ht|s' Hl Hs' Ht]; subst; [by apply Hlu in Hn|done|].
          apply Huu in Hs'; by subst.
        + assert (~ truth utc true) as Hnt by (intros H; apply bool_true_truth in H; congruence).
          split; [intros [= <-]; by apply (in_local G f utc)|]. intros H. inversion H as [n Hn|s' Hl Hs' Ht|s' Hl Hs' Ht]; subst; [by apply Hlu in Hn| |done].
          apply Huu in Hs'; by subst.
      - destruct (g_zone G loc) eqn:Eg; cbn [negb].
        + split; [intros [= <-]; by apply (in_named G f loc)|]. intros H. inversion H as [n Hn|s' Hl' Hs' Ht|s' Hl' Hs' Ht]; subst; [apply Hlu in Hn; by subst|by apply Hlu in Hl'..].
        + split; [discriminate|]. intros H. inversion H as [n Hn|s' Hl' Hs' Ht|s' Hl' Hs' Ht]; subst; [apply Hlu in Hn; subst; congruence|by apply Hlu in Hl'..]. }
    destruct (negb (seqb loc []) && negb (g_zone G loc)) eqn:Ez.
    + split; [discriminate|]. intros H.
      inversion H as [fmt' s' z' Ht Hc Hd Hr|fmt' s' z' sec ns Ht Hc Hd Hr Ez' Hb Hs|fmt' Ht Hc Hc'|fmt' s' z' d' Ht Hc Hc' _ Hzz]; subst; try done; try (apply Hu in Ht; by subst).
      by apply Hz in Hzz.
    + set (z := if negb (seqb loc []) then ZNamed loc else _) in *. destruct (g_time G layout s z) as [d'|] eqn:Et.
      * split; [intros [= <-]; apply (instant_text G f fmt s z); [done..|by apply Hz|done]|]. intros H.
        inversion H as [fmt' s' z' Ht Hc Hd Hr|fmt' s' z' sec ns Ht Hc Hd Hr Ez' Hb Hs|fmt' Ht Hc Hc'|fmt' s' z' d2 Ht Hc Hc' _ Hzz Hg]; subst; try done; apply Hu in Ht; subst; try done.
        apply Hz in Hzz as [= <-]. fold layout in Hg. congruence.
      * split; [discriminate|]. intros H.
        inversion H as [fmt' s' z' Ht Hc Hd Hr|fmt' s' z' sec ns Ht Hc Hd Hr Ez' Hb Hs|fmt' Ht Hc Hc'|fmt' s' z' d2 Ht Hc Hc' _ Hzz Hg]; subst; try done; apply Hu in Ht; subst; try done.
        apply Hz in Hzz as [= <-]. fold layout in Hg. congruence.
Qed.
End Facts.
