(** Facts on the calls that use a form. *)
From Verif Require Import Base GoStr Pattern Tree Header Router Ctx CallSpec HttpFacts Util Binding BindingSpec BindingTop Forms FormsSpec.
Local Open Scope Z_scope.

Lemma of_copy (a b : values) k : of (copyValues a b) k = of a k ++ of b k.
Proof.
  unfold of, copyValues. rewrite lookup_union_with. destruct (a !! k), (b !! k); cbn; [done| |done|done]. by rewrite app_nil_r.
Qed.
Lemma of_default {X} (m : gmap gostr (list X)) k : default [] (m !! k) = of m k.
Proof. unfold of. by destruct (m !! k). Qed.

Section Facts.
Context {D : Type} (late : bool) (memory : Z) (r : incoming (D:=D)).
Notation fileset := (gmap gostr (list D)).
Notation forms := (forms D).

Lemma post_true : has_post_body r = true <-> body_method r.
Proof.
  unfold has_post_body, body_method. rewrite !orb_true_iff, !seqb_true, !elem_of_cons, elem_of_nil. tauto.
Qed.

(** the state after the form was parsed *)
Definition settled (vals : gostr -> list gostr) (up : option (values * fileset)) (s : forms) : Prop :=
  (exists f, fm_form s = Some f /\ forall k, of f k = vals k) /\ (exists p, fm_post s = Some p) /\ fm_multi s = up.
Definition fresh (s : forms) : Prop := fm_form s = None /\ fm_post s = None /\ fm_multi s = None /\ fm_reads s = [].
(** parsing anew: the first time with no error, and the memory is noted *)
Variable vals : gostr -> list gostr.
Variable up : option (values * fileset).
Hypothesis Hr : holds r vals up.

Ltac up_cases vs fs Eu :=
  assert (exists u, up = u) as [u Eu] by eauto;
  repeat match goal with
  | H : fm_multi _ = up |- _ => rewrite Eu in H
  | |- context [up] => rewrite Eu
  end; destruct u as [[vs fs]|].

Lemma up_multi : is_multipart (in_req r) = match up with Some _ => true | None => false end.
Proof.
  inversion Hr; subst; [apply not_true_is_false; by rewrite is_multipart_true|by apply is_multipart_true|
    apply not_true_is_false; by rewrite is_multipart_true].
Qed.
Lemma up_reader : multipartReader r = match up with Some _ => true | None => false end.
Proof.
  unfold multipartReader. fold (content_type r). inversion Hr as [post url bd Hb Hm Hc Hn Hp Hu|vs fs url Hmr Hm Hi Hu|t ok bd url Hm Ht Hb Hn Hu]; subst.
  - rewrite Hm. apply andb_false_intro2. by rewrite andb_false_r.
  - rewrite Hm. cbn [andb seqb]. change (seqb _ (L "multipart/form-data") && true) with true. rewrite andb_true_r. apply negb_true_iff, seqb_false. destruct Hmr as [_ (a & b & E)]. fold (content_type r) in E.
    rewrite E. by destruct a.
  - case_decide as Ec; [by rewrite Ec|]. rewrite Hm. apply andb_false_intro2.
    assert (seqb t (L "multipart/form-data") = false) as -> by by apply seqb_false. by rewrite andb_false_r.
Qed.

Lemma parse_fresh s : fresh s ->
  exists f p, ParseForm r s = (mkForms (Some f) (Some p) (fm_multi s) (fm_parsed s) (fm_reads s), true) /\
    (up = None -> forall k, of f k = vals k) /\
    (forall vs fs, up = Some (vs, fs) -> forall k, of f k ++ of vs k = vals k).
Proof.
  intros (Hf & Hp & Hm & Hl). unfold ParseForm. rewrite Hf, Hp.
  inversion Hr as [post url bd Hb Hmd Hc Hn Hpo Hu|vs fs url Hmr Hmd Hi Hu|t ok bd url Hmd Ht Hb Hn Hu]; subst.
  - assert (has_post_body r = true) as -> by by apply post_true. unfold parsePostForm. fold (content_type r).
    assert (seqb (content_type r) [] = false) as -> by by apply seqb_false. rewrite Hmd, Hpo, Hu.
    exists (copyValues post url), post. split; [done|]. split; [|done]. intros _ k. apply of_copy.
  - assert (has_post_body r = true) as -> by (apply post_true; apply Hmr). unfold parsePostForm. fold (content_type r).
    assert (seqb (content_type r) [] = false) as ->.
    { apply seqb_false. destruct Hmr as [_ (a & b & E)]. fold (content_type r) in E. rewrite E. by destruct a. }
    rewrite Hmd, Hu. exists (copyValues ∅ url), ∅. split; [done|]. split; [done|].
    intros vs' fs' E k. injection E as -> ->. by rewrite of_copy.
  - assert ((if has_post_body r then parsePostForm r else (∅, true)) = (∅, true)) as ->.
    { destruct (has_post_body r) eqn:Ep; [|done]. apply post_true in Ep. destruct (Hb Ep) as [-> Hnot]. unfold parsePostForm.
      fold (content_type r). assert ((if seqb (content_type r) [] then L "application/octet-stream" else content_type r) =
        (if decide (content_type r = []) then L "application/octet-stream" else content_type r)) as ->.
      { case_decide as E; [by rewrite E|]. by rewrite (proj2 (seqb_false _ _) E). }
      rewrite Hmd. by rewrite (proj2 (seqb_false _ _) Hnot). }
    rewrite Hu. exists (copyValues ∅ url), ∅. split; [done|]. split; [|done]. intros _ k. by rewrite of_copy.
Qed.

Lemma multi_fresh max s : fresh s ->
  exists s', ParseMultipartForm late r max s = (s', match up with Some _ => true | None => false end) /\ settled vals up s' /\
    fm_parsed s' = fm_parsed s /\ fm_reads s' = match up with Some _ => [max] | None => [] end.
Proof.
  intros Hs. destruct (parse_fresh s Hs) as (f & p & E & Hn & Hy). destruct Hs as (Hf & Hp & Hm & Hl).
  unfold ParseMultipartForm. rewrite Hf, E. cbn [negb andb fm_multi fm_form fm_post fm_parsed fm_reads]. rewrite Hm, up_reader, Hl.
  up_cases vs fs Eu; cbn [negb].
  - assert (in_multi r 0 = Some (vs, fs)) as Hi by (inversion Hr; congruence).
    cbn [length]. rewrite Hi. eexists. split; [reflexivity|]. cbn. split; [|done]. split; [|split; [by eexists|done]].
    eexists. split; [done|]. intros k. rewrite of_copy. by apply (Hy vs fs).
  - eexists. split; [reflexivity|]. cbn. split; [|done]. split; [|split; [by eexists|done]]. exists f. split; [done|]. by apply Hn.
Qed.
Lemma multi_settled max s : settled vals up s ->
  ParseMultipartForm late r max s = (s, match up with Some _ => true | None => false end).
Proof.
  intros [(f & Hf & _) [_ Hm]]. unfold ParseMultipartForm. rewrite Hf. cbn [negb andb]. rewrite Hm, up_reader. by destruct up.
Qed.

(** a request whose form was not yet used, or was parsed *)
Definition kept (s : forms) : Prop := fresh s /\ fm_parsed s = false \/ settled vals up s.
(** how a call changes the reads *)
Definition reads_on (s s' : forms) (m : Z) : Prop :=
  settled vals up s /\ fm_reads s' = fm_reads s \/
  fresh s /\ (fm_reads s' = match up with Some _ => [m] | None => [] end).

Lemma parse_kept s : kept s ->
  exists s', ParseFormOrMultipartForm late r memory s = (s', true) /\ settled vals up s' /\ reads_on s s' memory.
Proof.
  intros Hs. unfold ParseFormOrMultipartForm. rewrite up_multi. destruct Hs as [[Hs Hp]|Hs].
  - rewrite Hp. set (s0 := mkForms _ _ _ _ _). assert (fresh s0) as H0 by exact Hs. up_cases vs fs Eu.
    + destruct (multi_fresh memory s0 H0) as (s' & E & Hs' & _ & Hl). rewrite Eu in E, Hs', Hl. rewrite E. exists s'. split; [done|]. split; [done|].
      right. split; [done|]. by rewrite Eu.
    + destruct (parse_fresh s0 H0) as (f & p & E & Hn & _). rewrite E. eexists. split; [reflexivity|].
      split; [|right; split; [done|]; rewrite Eu; apply Hs]. split; [|split; [by eexists|apply Hs]]. exists f. split; [done|]. by apply Hn.
  - destruct (fm_parsed s); [exists s; split; [done|]; split; [done|]; by left|].
    set (s0 := mkForms _ _ _ _ _). assert (settled vals up s0) as H0 by exact Hs. up_cases vs fs Eu.
    + pose proof (multi_settled memory s0) as E. rewrite Eu in E, H0. rewrite E by done. exists s0. split; [done|]. split; [done|]. left. by rewrite Eu.
    + rewrite Eu in H0. unfold ParseForm. destruct H0 as [(f & Hf & Hv) [(p & Hp) Hm]]. rewrite Hf, Hp. cbn. eexists. split; [reflexivity|].
      split; [|left; split; [exact Hs|done]]. split; [by exists f|]. split; [by eexists|exact Hm].
Qed.

Lemma bind_kept b s : kept s -> exists s' a, form_BindWith late r memory b s = (s', a) /\ gives vals up b a /\
  (b = BJSON \/ b = BXML -> s' = s) /\ (b <> BJSON -> b <> BXML -> settled vals up s' /\ reads_on s s' memory).
Proof.
  intros Hs. destruct (parse_kept s Hs) as (s' & E & Hs' & Hl). pose proof Hs' as [(f & Hf & Hv) [(p & Hp) Hm]].
  destruct b; cbn [form_BindWith]; try rewrite E; cbn [negb].
  - eexists _, _. split; [reflexivity|]. split; [constructor; set_solver|]. split; [done|]. by intros ?.
  - eexists _, _. split; [reflexivity|]. split; [constructor; set_solver|]. split; [done|]. by intros ? ?.
  - rewrite Hf. eexists _, _. split; [reflexivity|]. rewrite Hf. split; [by constructor|]. split; [by intros [?|?]|]. intros _ _. rewrite ?Eu in *. split; [|done]. split; [by exists f|by split; [exists p|]].
  - up_cases vs fs Eu; rewrite Hm.
    + eexists _, _. split; [reflexivity|]. rewrite Hm. split; [by constructor|]. split; [by intros [?|?]|]. intros _ _. rewrite ?Eu in *. split; [|done]. split; [by exists f|by split; [exists p|]].
    + pose proof (multi_settled memory s') as E'. rewrite Eu in E', Hs'. rewrite E' by done. eexists _, _. split; [reflexivity|]. split; [by constructor|].
      split; [by intros [?|?]|]. intros _ _. rewrite ?Eu in *. split; [|done]. split; [by exists f|by split; [exists p|]].
  - eexists _, _. split; [reflexivity|]. split; [constructor; set_solver|]. split; [by intros [?|?]|]. intros _ _. rewrite ?Eu in *. split; [|done]. split; [by exists f|by split; [exists p|]].
  - eexists _, _. split; [reflexivity|]. split; [constructor; set_solver|]. split; [by intros [?|?]|]. intros _ _. rewrite ?Eu in *. split; [|done]. split; [by exists f|by split; [exists p|]].
Qed.

Lemma do_kept c s : kept s -> exists s' a, fdo late r memory c s = (s', a) /\ replies r vals up c a /\
  (idle r c /\ s' = s \/
   ~ idle r c /\ settled vals up s' /\ exists m, reads_on s s' m /\ (direct c -> m = defaultMaxMemory) /\ (~ direct c -> m = memory)).
Proof.
  intros Hs. destruct c as [k|k|k|b|]; cbn [fdo].
  - destruct (parse_kept s Hs) as (s' & E & Hs' & Hl). pose proof Hs' as [(f & Hf & Hv) _]. rewrite E. eexists _, _. split; [reflexivity|].
    rewrite Hf. cbn [default]. rewrite of_default. unfold id. rewrite Hv. split; [constructor|].
    right. split; [by intros [?|[?|[? _]]]|]. split; [done|]. exists memory. split; [done|]. split; [intros (? & [?|?]); done|done].
  - assert (exists s', (match fm_multi s with None => ParseMultipartForm late r defaultMaxMemory s | Some _ => (s, true) end) =
      (s', match up with Some _ => true | None => false end) /\ settled vals up s' /\ reads_on s s' defaultMaxMemory) as (s' & E & Hs' & Hl).
    { destruct Hs as [[Hs _]|Hs].
      - pose proof Hs as (_ & _ & Hm & _). rewrite Hm. destruct (multi_fresh defaultMaxMemory s Hs) as (s' & E & Hs' & _ & Hl).
        exists s'. split; [done|]. split; [done|]. by right.
      - exists s. split; [|split; [done|by left]]. pose proof Hs as [_ [_ Hm]]. rewrite Hm. up_cases vs fs Eu; [done|].
        pose proof (multi_settled defaultMaxMemory s) as E'. rewrite Eu in E', Hs. by rewrite E'. }
    unfold FormFile. rewrite E. pose proof Hs' as [_ [_ Hm]].
    assert (forall a, replies r vals up (CFormFile k) a -> exists s0 a0, (s', a) = (s0, a0) /\ replies r vals up (CFormFile k) a0 /\
      (idle r (CFormFile k) /\ s0 = s \/ ~ idle r (CFormFile k) /\ settled vals up s0 /\ exists m, reads_on s s0 m /\
        (direct (CFormFile k) -> m = defaultMaxMemory) /\ (~ direct (CFormFile k) -> m = memory))) as Hall.
    { intros a Ha. exists s', a. split; [done|]. split; [done|]. right. split; [by intros [?|[?|[? _]]]|]. split; [done|]. exists defaultMaxMemory.
      split; [done|]. split; [done|]. intros Hd. destruct Hd. exists k. by left. }
    up_cases vs fs Eu; rewrite Eu in Hall; cbn [negb].
    + rewrite Hm, of_default. destruct (of fs k) eqn:Eo; apply Hall; [by eapply replies_no_file|by eapply replies_file].
    + apply Hall. by constructor.
  - assert (exists s', (match fm_form s with None => fst (ParseMultipartForm late r defaultMaxMemory s) | Some _ => s end) = s' /\
      settled vals up s' /\ reads_on s s' defaultMaxMemory) as (s' & E & Hs' & Hl).
    { destruct Hs as [[Hs _]|Hs].
      - pose proof Hs as (Hf & _). rewrite Hf. destruct (multi_fresh defaultMaxMemory s Hs) as (s' & E & Hs' & _ & Hl).
        exists s'. rewrite E. split; [done|]. split; [done|]. by right.
      - exists s. split; [|split; [done|by left]]. pose proof Hs as [(f & Hf & _) _]. by rewrite Hf. }
    unfold FormValue. rewrite E. pose proof Hs' as [(f & Hf & Hv) _]. eexists _, _. split; [reflexivity|]. rewrite Hf. cbn [default]. unfold id.
    rewrite of_default, Hv. split; [destruct (vals k) eqn:Ev; [by constructor|by eapply replies_value]|].
    right. split; [by intros [?|[?|[? _]]]|]. split; [done|]. exists defaultMaxMemory. split; [done|]. split; [done|].
    intros Hd. destruct Hd. exists k. by right.
  - destruct (bind_kept b s Hs) as (s' & a & E & Hg & Hi & Hl). rewrite E. exists s', a. split; [done|]. split; [by constructor|].
    assert (b = BJSON \/ b = BXML \/ (b <> BJSON /\ b <> BXML)) as [H|[H|[H1 H2]]] by (destruct b; auto).
    + left. rewrite H in *. split; [by left|]. apply Hi. by left.
    + left. rewrite H in *. split; [right; by left|]. apply Hi. by right.
    + right. destruct (Hl H1 H2) as [Hs' Hr']. split; [intros [Hd|[Hd|[Hd _]]]; congruence|]. split; [done|]. exists memory. split; [done|]. split; [intros (? & [?|?]); done|done].
  - set (m := filterFlags (h_get (rq_header (in_req r)) (L "Content-Type"))). set (b := NewBindinger (rq_method (in_req r)) m).
    pose proof (media_exists (content_type r)) as Hmd. pose proof (proj1 (choice (rq_method (in_req r)) m b) eq_refl) as Hb.
    assert (exists s' a, (match b with BJSON | BXML => form_BindWith late r memory b s | _ =>
        let '(s, ok) := ParseFormOrMultipartForm late r memory s in if ok : bool then form_BindWith late r memory b s else (s, APanic) end) = (s', a) /\
      gives vals up b a /\ (b = BJSON \/ b = BXML -> s' = s) /\ (b <> BJSON -> b <> BXML -> settled vals up s' /\ reads_on s s' memory)) as (s' & a & E & Hg & Hi & Hl).
    { destruct (bind_kept b s Hs) as (s1 & a1 & E1 & Hg1 & Hi1 & Hl1).
      assert (b = BJSON \/ b = BXML \/ (b <> BJSON /\ b <> BXML)) as [H|[H|[H1 H2]]] by (destruct b; auto).
      - rewrite H in *. by exists s1, a1.
      - rewrite H in *. by exists s1, a1.
      - destruct (parse_kept s Hs) as (s2 & E2 & Hs2 & Hl2). destruct (bind_kept b s2 (or_intror Hs2)) as (s3 & a3 & E3 & Hg3 & _ & Hl3).
        exists s3, a3. split; [rewrite E2; by destruct b|]. split; [done|]. split; [by intros [?|?]|]. intros _ _. destruct (Hl3 H1 H2) as [Hs3 Hr3]. split; [done|].
        destruct Hr3 as [[_ Er]|[(Hf & _) _]]; [|by destruct Hs2 as [(f & Hf' & _) _]; congruence].
        destruct Hl2 as [[Ha Eb]|[Ha Eb]]; [left|right]; (split; [done|congruence]). }
    exists s', a. split; [exact E|]. split; [by eapply (replies_bind _ _ _ m b)|].
    assert (b = BJSON \/ b = BXML \/ (b <> BJSON /\ b <> BXML)) as [H|[H|[H1 H2]]] by (destruct b; auto).
    1,2: left; split; [|apply Hi; auto]; right; right; split; [done|]; exists m, b; (split; [done|]); (split; [done|]); rewrite H; set_solver.
    right. destruct (Hl H1 H2) as [Hs' Hr']. split.
    { intros [Hd|[Hd|[_ (m' & b' & Hm' & Hb' & Hin)]]]; [done|done|]. apply media_filter in Hm'. assert (m' = m) as -> by done.
      assert (b' = b) as -> by (by eapply chooses_one). rewrite !elem_of_cons, elem_of_nil in Hin. tauto. }
    split; [done|]. exists memory. split; [done|]. split; [intros (? & [?|?]); done|done].
Qed.

Lemma dos_kept cs : forall s, kept s -> exists s' l, fdos late r memory cs s = (s', l) /\ kept s' /\ Forall2 (replies r vals up) cs l.
Proof.
  induction cs as [|c cs IH]; intros s Hs; [by exists s, []|]. destruct (do_kept c s Hs) as (s1 & a & E & Ha & Hn).
  assert (kept s1) as H1 by (destruct Hn as [[_ ->]|[_ [H1 _]]]; [done|by right]).
  destruct (IH s1 H1) as (s2 & l & E2 & H2 & Hl). cbn [fdos]. rewrite E, E2. exists s2, (a :: l). split; [done|]. split; [done|]. by constructor.
Qed.
Lemma settled_reads cs : forall s, settled vals up s -> fm_reads (fst (fdos late r memory cs s)) = fm_reads s.
Proof.
  induction cs as [|c cs IH]; intros s Hs; [done|]. destruct (do_kept c s (or_intror Hs)) as (s1 & a & E & _ & Hn). cbn [fdos]. rewrite E.
  assert (settled vals up s1 /\ fm_reads s1 = fm_reads s) as [H1 E1].
  { destruct Hn as [[_ ->]|[_ [H1 (m & [[_ Em]|[(Hf & _) _]] & _)]]]; [done|done|]. destruct Hs as [(f & Hf' & _) _]. congruence. }
  rewrite <- E1, <- (IH s1 H1). by destruct (fdos late r memory cs s1).
Qed.
Lemma first_reads cs : (Forall (idle r) cs /\ fm_reads (fst (fdos late r memory cs no_forms)) = []) \/
  exists c1 c c2, cs = c1 ++ c :: c2 /\ Forall (idle r) c1 /\ ~ idle r c /\
    exists m, fm_reads (fst (fdos late r memory cs no_forms)) = match up with Some _ => [m] | None => [] end /\
      (direct c -> m = defaultMaxMemory) /\ (~ direct c -> m = memory).
Proof.
  assert (fresh no_forms /\ fm_parsed (no_forms (D:=D)) = false) as H0 by done.
  induction cs as [|c cs IH]; [by left|]. destruct (do_kept c no_forms (or_introl H0)) as (s1 & a & E & _ & Hn).
  assert (fst (fdos late r memory (c :: cs) no_forms) = fst (fdos late r memory cs s1)) as Ef.
  { cbn [fdos]. rewrite E. by destruct (fdos late r memory cs s1). }
  rewrite Ef. destruct Hn as [[Hi ->]|[Hi [H1 (m & Hr1 & Hm)]]].
  - destruct IH as [[Hall Er]|(c1 & c' & c2 & -> & Hall & Hc & Hm)]; [left; split; [by constructor|done]|right].
    exists (c :: c1), c', c2. split; [done|]. split; [by constructor|done].
  - right. exists [], c, cs. split; [done|]. split; [constructor|]. split; [done|]. exists m. split; [|done]. rewrite settled_reads by done.
    destruct Hr1 as [[[(f & Hf & _) _] _]|[_ Er]]; [by destruct H0 as [(? & _) _]|done].
Qed.
End Facts.

(** ** The answers are determined by the request *)
Section One.
Context {D : Type} (r : incoming (D:=D)).
Notation fileset := (gmap gostr (list D)).
Lemma holds_one vals up vals' up' : holds r vals up -> holds r vals' up' -> up = up' /\ forall k, vals k = vals' k.
Proof.
  intros [post url bd Hb Hm Hc Hn Hp Hu|vs fs url Hmr Hm Hi Hu|t ok bd url Hm Ht Hb Hn Hu]
    [post' url' bd' Hb' Hm' Hc' Hn' Hp' Hu'|vs' fs' url' Hmr' Hm' Hi' Hu'|t' ok' bd' url' Hm' Ht' Hb' Hn' Hu']; try done.
  - assert (post = post') as <- by congruence. assert (url = url') as <- by congruence. done.
  - rewrite decide_False in Hm' by done. destruct (Hb' Hb) as [_ []]. congruence.
  - assert (vs = vs') as <- by congruence. assert (fs = fs') as <- by congruence. assert (url = url') as <- by congruence. done.
  - rewrite decide_False in Hm by done. destruct (Hb Hb') as [_ []]. congruence.
  - assert (url = url') as <- by congruence. done.
Qed.
Lemma gives_one vals vals' up b (a a' : fans (D:=D)) : (forall k, vals k = vals' k) -> gives vals up b a -> gives vals' up b a' ->
  a = a' \/ exists f f', a = ASource f ∅ /\ a' = ASource f' ∅ /\ forall k, of f k = of f' k.
Proof.
  intros Hv H. destruct H as [f Hf|vs fs E|E|b Hb]; intros H'; inversion H'; subst; try (by left); try congruence; try (exfalso; set_solver).
  - right. eexists _, _. split; [done|]. split; [done|]. intros k. by rewrite Hf, Hv.
  - left. congruence.
Qed.
Lemma replies_one vals vals' up c a a' : (forall k, vals k = vals' k) -> replies r vals up c a -> replies r vals' up c a' ->
  a = a' \/ exists f f', a = ASource f ∅ /\ a' = ASource f' ∅ /\ forall k, of f k = of f' k.
Proof.
  intros Hv H. destruct H as [k|k v l E|k E|k vs fs d l E Ed|k vs fs E Ed|k E|b a Hg|m b a Hm Hb Hg]; intros H'; inversion H'; subst;
    try (left; repeat match goal with H : vals _ = _ |- _ => rewrite Hv in H end; congruence).
  - by eapply gives_one.
  - apply media_filter in Hm. match goal with H : media_type _ _ |- _ => apply media_filter in H end. subst.
    match goal with H : chooses _ _ ?b1, H1 : chooses _ _ ?b2 |- _ => lazymatch b1 with b2 => fail | _ => assert (b1 = b2) by (by eapply chooses_one); subst end end.
    by eapply gives_one.
Qed.
End One.

(** ** The memory in general *)
Section Reads.
Context {D : Type} (late : bool) (memory : Z) (r : incoming (D:=D)).
Notation forms := (forms D).
Definition reads_more (m : Z) (s s' : forms) : Prop := fm_reads s' = fm_reads s \/ fm_reads s' = fm_reads s ++ [m].
Lemma parse_reads s : fm_reads (fst (ParseForm r s)) = fm_reads s.
Proof. unfold ParseForm. by repeat case_match; simplify_eq. Qed.
Lemma multi_reads m s : reads_more m s (fst (ParseMultipartForm late r m s)).
Proof.
  unfold ParseMultipartForm. assert (fm_reads (fst (match fm_form s with None => ParseForm r s | Some _ => (s, true) end)) = fm_reads s) as E.
  { destruct (fm_form s); [done|apply parse_reads]. }
  destruct (match fm_form s with None => ParseForm r s | Some _ => (s, true) end) as [s1 ok]. cbn [fst] in E. unfold reads_more. rewrite <- E.
  repeat case_match; cbn; auto.
Qed.
Definition reads_in (P : Z -> Prop) (s s' : forms) : Prop := (forall m, m ∈ fm_reads s -> P m) -> forall m, m ∈ fm_reads s' -> P m.
Lemma more_in (P : Z -> Prop) m s s' : P m -> reads_more m s s' -> reads_in P s s'.
Proof. intros Hm [E|E] H m'; rewrite E; [apply H|]. rewrite elem_of_app, elem_of_list_singleton. intros [?| ->]; auto. Qed.
Lemma any_reads (P : Z -> Prop) s : P memory -> reads_in P s (fst (ParseFormOrMultipartForm late r memory s)).
Proof.
  intros Hm. unfold ParseFormOrMultipartForm. destruct (fm_parsed s); [by intros H|]. destruct (is_multipart (in_req r)).
  - eapply more_in; [exact Hm|]. apply (multi_reads memory (mkForms _ _ _ _ (fm_reads s))).
  - intros H m. rewrite parse_reads. apply H.
Qed.
Lemma bind_reads (P : Z -> Prop) b s : P memory -> reads_in P s (fst (form_BindWith late r memory b s)).
Proof.
  intros Hm. pose proof (any_reads P s Hm) as H1. unfold form_BindWith.
  destruct (ParseFormOrMultipartForm late r memory s) as [s1 ok]. cbn [fst] in H1.
  destruct b; try (by intros H); destruct ok; cbn [negb fst]; try exact H1.
  - destruct (fm_form s1); [exact H1|]. pose proof (parse_reads s1) as E. destruct (ParseForm r s1) as [s2 ok]. cbn [fst] in *. intros H m. rewrite E. by apply H1.
  - destruct (fm_multi s1); [exact H1|]. pose proof (multi_reads memory s1) as E. destruct (ParseMultipartForm late r memory s1) as [s2 ok]. cbn [fst] in *.
    intros H. by apply (more_in P memory s1 s2 Hm E), H1.
Qed.
Lemma do_reads (P : Z -> Prop) c s : P memory -> (direct c -> P defaultMaxMemory) -> reads_in P s (fst (fdo late r memory c s)).
Proof.
  intros Hm Hd. destruct c as [k|k|k|b|]; cbn [fdo].
  - pose proof (any_reads P s Hm) as H1. by destruct (ParseFormOrMultipartForm late r memory s).
  - assert (P defaultMaxMemory) as H32 by (apply Hd; exists k; by left). unfold FormFile. destruct (fm_multi s); [by intros H|].
    pose proof (multi_reads defaultMaxMemory s) as E. destruct (ParseMultipartForm late r defaultMaxMemory s) as [s2 []]; by eapply more_in.
  - assert (P defaultMaxMemory) as H32 by (apply Hd; exists k; by right). unfold FormValue. cbn [fst]. destruct (fm_form s); [by intros H|].
    eapply more_in; [exact H32|]. apply multi_reads.
  - by apply bind_reads.
  - pose proof (any_reads P s Hm) as H1. set (b := NewBindinger _ _). clearbody b. destruct (ParseFormOrMultipartForm late r memory s) as [s1 []]; cbn [fst] in H1.
    + pose proof (bind_reads P b s Hm). pose proof (bind_reads P b s1 Hm) as H2. destruct b; try done; intros H'; by apply H2, H1.
    + pose proof (bind_reads P b s Hm). by destruct b.
Qed.
Lemma dos_reads (P : Z -> Prop) cs : P memory -> Forall (fun c => direct c -> P defaultMaxMemory) cs ->
  forall s, reads_in P s (fst (fdos late r memory cs s)).
Proof.
  intros Hm Hall. induction Hall as [|c cs Hc _ IH]; intros s; [by intros H|]. cbn [fdos]. pose proof (do_reads P c s Hm Hc) as H1.
  destruct (fdo late r memory c s) as [s1 a]. cbn [fst] in H1. specialize (IH s1). destruct (fdos late r memory cs s1). intros H. by apply IH, H1.
Qed.
Lemma all_reads cs s : fm_reads s = [] ->
  (forall m, m ∈ fm_reads (fst (fdos late r memory cs s)) -> m = memory \/ m = 32 * 1024 * 1024) /\
  (Forall (fun c => ~ direct c) cs -> forall m, m ∈ fm_reads (fst (fdos late r memory cs s)) -> m = memory).
Proof.
  intros Hs. split.
  - apply (dos_reads (fun m => m = memory \/ m = 32 * 1024 * 1024)); [by left| |rewrite Hs; set_solver]. apply Forall_forall. intros ? ? ?. by right.
  - intros Hall. apply (dos_reads (fun m => m = memory)); [done| |rewrite Hs; set_solver]. eapply Forall_impl; [exact Hall|]. by intros ? ? ?.
Qed.
End Reads.
