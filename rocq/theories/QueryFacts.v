(** Proofs about forms. *)
From Coq Require Import ZArith NArith.
From Verif Require Import Base GoStr GoStrFacts Tree Header Router Ctx UtilSpec NetQuery QuerySpec.

(** ** One piece *)
Lemma unhex_val c : unhex c = hex_val c.
Proof. destruct c as [[] [] [] [] [] [] [] []]; vm_compute; reflexivity. Qed.
Lemma hex_val_small c h : hex_val c = Some h -> (h < 16)%N.
Proof. destruct c as [[] [] [] [] [] [] [] []]; vm_compute; intros E; (discriminate || (injection E as <-; reflexivity)). Qed.

Lemma unescape_sound stops s : "%"%char ∈ stops -> "+"%char ∈ stops -> forall t, spelled stops s t -> QueryUnescape t = Some s.
Proof.
  intros Hp Hq t H. induction H as [|a s t Ha H IH|s t H IH|a x y h l s t Hx Hy Ha H IH]; [done|..]; cbn [QueryUnescape].
  - assert (Ascii.eqb a "%" = false) as -> by (apply Ascii.eqb_neq; by intros ->).
    assert (Ascii.eqb a "+" = false) as -> by (apply Ascii.eqb_neq; by intros ->). by rewrite IH.
  - by rewrite IH.
  - rewrite Ascii.eqb_refl, !unhex_val, Hx, Hy, IH. by rewrite <- Ha, ascii_N_embedding.
Qed.
Lemma unescape_complete stops t : (forall a, a ∈ stops -> a ∈ t -> a = "%"%char \/ a = "+"%char) ->
  forall s, QueryUnescape t = Some s -> spelled stops s t.
Proof.
  remember (length t) as n eqn:Hn. assert (length t <= n) as Hle by lia. clear Hn. revert t Hle.
  induction n as [|n IH]; intros [|a t] Hle Hs s H; cbn [length] in Hle; try lia; try (injection H as <-; constructor).
  cbn [QueryUnescape] in H. destruct (Ascii.eqb a "%") eqn:Ea.
  - apply Ascii.eqb_eq in Ea as ->. destruct t as [|x [|y t]]; try done.
    destruct (unhex x) as [h|] eqn:Hx; [|done]. destruct (unhex y) as [l|] eqn:Hy; [|done].
    destruct (QueryUnescape t) as [u|] eqn:Hu; [|done]. injection H as <-. rewrite unhex_val in Hx, Hy.
    eapply sp_hex; [exact Hx|exact Hy| |].
    + apply hex_val_small in Hx, Hy. apply N_ascii_embedding. lia.
    + apply IH; [cbn in *; lia| |done]. intros b Hb Hb'. apply Hs; [done|]. rewrite !elem_of_cons. tauto.
  - destruct (QueryUnescape t) as [u|] eqn:Hu; [|done]. injection H as <-.
    assert (spelled stops u t) as IHt.
    { apply IH; [lia| |done]. intros b Hb Hb'. apply Hs; [done|]. rewrite elem_of_cons. tauto. }
    destruct (Ascii.eqb a "+") eqn:Ep; [apply Ascii.eqb_eq in Ep as ->; by constructor|]. apply Ascii.eqb_neq in Ea, Ep.
    constructor; [|done]. intros Ha. destruct (Hs a Ha) as [->| ->]; [by rewrite elem_of_cons; left|done..].
Qed.
Lemma spelled_avoids stops s t c : c ∈ stops -> c <> "%"%char -> c <> "+"%char -> hex_val c = None -> spelled stops s t -> c ∉ t.
Proof.
  intros Hc Hp Hq Hh H. induction H as [|a s t Ha H IH|s t H IH|a x y h l s t Hx Hy Ha H IH]; [by apply not_elem_of_nil|..];
    rewrite ?not_elem_of_cons; repeat split; try done; intros ->; congruence.
Qed.
Ltac byte_in := repeat rewrite elem_of_cons; cbn; tauto.
Lemma pair_avoids p t c : c ∈ L "&;" -> pair_text p t -> c ∉ t.
Proof.
  intros Hc H. assert (c = "&"%char \/ c = ";"%char) as Hc' by (unfold L in Hc; cbn in Hc; rewrite !elem_of_cons, elem_of_nil in Hc; tauto).
  assert (forall stops s t, c ∈ stops -> spelled stops s t -> c ∉ t) as Hs.
  { intros stops s t0 Hin. apply spelled_avoids; [done|..]; destruct Hc' as [-> | ->]; done. }
  destruct H as [k v tk tv Hk Hv|k tk Hk _].
  - apply Hs in Hk, Hv. 2,3: unfold L; cbn; destruct Hc' as [-> | ->]; byte_in.
    rewrite !not_elem_of_app. repeat split; [done| |done]. destruct Hc' as [-> | ->]; unfold L; cbn; rewrite elem_of_list_singleton; done.
  - apply Hs in Hk; [done|]. unfold L; cbn; destruct Hc' as [-> | ->]; byte_in.
Qed.

Lemma index_byte_app c p q : c ∉ p -> index_byte c (p ++ c :: q) = Some (length p).
Proof.
  induction p as [|a p IH]; intros H; cbn.
  - by rewrite Ascii.eqb_refl.
  - apply not_elem_of_cons in H as [H1 H2]. assert (Ascii.eqb a c = false) as -> by (apply Ascii.eqb_neq; congruence). by rewrite IH.
Qed.
Lemma index_byte_none c p : index_byte c p = None <-> c ∉ p.
Proof.
  induction p as [|a p IH]; cbn; [split; [intros _; apply not_elem_of_nil|done]|]. rewrite not_elem_of_cons.
  destruct (Ascii.eqb a c) eqn:E; [apply Ascii.eqb_eq in E as ->; split; [done|]; by intros []|]. apply Ascii.eqb_neq in E.
  destruct (index_byte c p); [split; [done|]; intros [_ H]; apply IH in H; done|]. split; [|done]. intros _. split; [congruence|by apply IH].
Qed.
Lemma index_byte_some c p i : index_byte c p = Some i -> c ∉ take i p /\ p = take i p ++ c :: drop (S i) p.
Proof.
  revert i. induction p as [|a p IH]; intros i H; [done|]. cbn in H. destruct (Ascii.eqb a c) eqn:E.
  - injection H as <-. apply Ascii.eqb_eq in E as ->. cbn. split; [apply not_elem_of_nil|done].
  - destruct (index_byte c p) as [j|] eqn:Ej; [|done]. injection H as <-. destruct (IH j eq_refl) as [H1 H2]. apply Ascii.eqb_neq in E.
    cbn. split; [rewrite not_elem_of_cons; split; [congruence|done]|]. by f_equal.
Qed.

(** the pairs of a piece, as the loop of parseQuery finds them *)
Lemma piece_parsed t ps ok : piece t ps ok -> forall st, parse_piece t st =
  (fold_left (fun m p => v_add m (fst p) (snd p)) ps (fst st), snd st && ok).
Proof.
  intros H [m b]. destruct H as [|[k0 v0] t H|t Hne H1 H2 H].
  - cbn. by rewrite andb_true_r.
  - cbn [fst snd fold_left]. rewrite andb_true_r. inversion H as [k v tk tv Hk Hv E1 E2|k tk Hk Hne E1 E2]; subst.
    + unfold parse_piece. assert ("="%char ∉ tk) as Hin by (eapply (spelled_avoids (L "%+&;=")); [|done|done|done|exact Hk]; unfold L; cbn; byte_in).
      destruct (tk ++ L "=" ++ tv) as [|z rest] eqn:E; [by destruct tk|]. rewrite <- E.
      change (L "=" ++ tv) with ("="%char :: tv). rewrite index_byte_app by done. rewrite take_app, drop_app_ge by lia.
      replace (S (length tk) - length tk) with 1 by lia. cbn [drop].
      rewrite (unescape_sound (L "%+&;=") k0); [|unfold L; cbn; byte_in..|done].
      rewrite (unescape_sound (L "%+&;") v0); [done|unfold L; cbn; byte_in..|done].
    + unfold parse_piece. destruct t as [|z rest] eqn:E; [done|]. rewrite <- E in *.
      assert ("="%char ∉ t) as Hin by (eapply (spelled_avoids (L "%+&;=")); [|done|done|done|exact Hk]; unfold L; cbn; byte_in).
      apply index_byte_none in Hin as ->.
      rewrite (unescape_sound (L "%+&;=") k0); [done|unfold L; cbn; byte_in..|done].
  - cbn [fst snd fold_left]. rewrite andb_false_r. unfold parse_piece. destruct t as [|z rest] eqn:E; [done|]. rewrite <- E in *.
    destruct (index_byte "=" t) as [i|] eqn:Ei.
    + apply index_byte_some in Ei as [Hi Et].
      destruct (QueryUnescape (take i t)) as [k|] eqn:Ek; [|done].
      destruct (QueryUnescape (drop (S i) t)) as [v|] eqn:Ev; [|done]. exfalso. apply (H (k, v)). rewrite Et.
      apply (pt_both k v (take i t) (drop (S i) t)).
      * apply unescape_complete; [|done]. intros a Ha Ht. unfold L in Ha; cbn in Ha. rewrite !elem_of_cons, elem_of_nil in Ha.
        assert (a ∈ t) as Ht' by (rewrite Et; rewrite elem_of_app; tauto).
        destruct Ha as [->|[->|[->|[->|[->|[]]]]]]; tauto.
      * apply unescape_complete; [|done]. intros a Ha Ht. unfold L in Ha; cbn in Ha. rewrite !elem_of_cons, elem_of_nil in Ha.
        assert (a ∈ t) as Ht' by (rewrite Et; rewrite elem_of_app, elem_of_cons; tauto).
        destruct Ha as [->|[->|[->|[->|[]]]]]; tauto.
    + apply index_byte_none in Ei. destruct (QueryUnescape t) as [k|] eqn:Ek; [|done]. exfalso. apply (H (k, [])).
      apply pt_name; [|done]. apply unescape_complete; [|done]. intros a Ha Ht. unfold L in Ha; cbn in Ha. rewrite !elem_of_cons, elem_of_nil in Ha.
      destruct Ha as [->|[->|[->|[->|[->|[]]]]]]; tauto.
Qed.
(** every text between separators is such a piece *)
Lemma piece_total t : "&"%char ∉ t -> ";"%char ∉ t -> exists ps ok, piece t ps ok.
Proof.
  intros H1 H2. destruct (decide (t = [])) as [->|Hne]; [eexists _, _; constructor|].
  assert ((exists p, pair_text p t) \/ ~ exists p, pair_text p t) as [[p Hp]|Hn]; [|by eexists _, _; constructor|].
  2:{ eexists _, _. apply pc_bad; [done..|]. intros p Hp. apply Hn. by exists p. }
  destruct (index_byte "=" t) as [i|] eqn:Ei.
  - apply index_byte_some in Ei as [Hi Et].
    assert (forall b : bool, (exists s, QueryUnescape (if b then take i t else drop (S i) t) = Some s) \/ QueryUnescape (if b then take i t else drop (S i) t) = None) as Hd.
    { intros b. destruct (QueryUnescape _); eauto. }
    destruct (Hd true) as [[k Hk]|Hk]; [destruct (Hd false) as [[v Hv]|Hv]|].
    + left. exists (k, v). rewrite Et. apply (pt_both k v (take i t) (drop (S i) t)).
      * apply unescape_complete; [|done]. intros a Ha Ht. unfold L in Ha; cbn in Ha. rewrite !elem_of_cons, elem_of_nil in Ha.
        assert (a ∈ t) as Ht' by (rewrite Et; rewrite elem_of_app; tauto).
        destruct Ha as [->|[->|[->|[->|[->|[]]]]]]; tauto.
      * apply unescape_complete; [|done]. intros a Ha Ht. unfold L in Ha; cbn in Ha. rewrite !elem_of_cons, elem_of_nil in Ha.
        assert (a ∈ t) as Ht' by (rewrite Et; rewrite elem_of_app, elem_of_cons; tauto).
        destruct Ha as [->|[->|[->|[->|[]]]]]; tauto.
    + right. intros [p Hp]. pose proof (piece_parsed _ _ _ (pc_pair p t Hp) (∅, true)) as E. unfold parse_piece in E.
      destruct t as [|z rest] eqn:Ez; [done|]. rewrite <- Ez in *. assert (index_byte "=" t = Some i) as Ei.
      { rewrite Et at 1. rewrite index_byte_app by done. f_equal. apply take_length_le.
        apply (f_equal length) in Et. rewrite app_length in Et. cbn in Et. rewrite take_length, drop_length in Et. lia. }
      rewrite Ei, Hk, Hv in E. apply (f_equal snd) in E. cbn in E. done.
    + right. intros [p Hp]. pose proof (piece_parsed _ _ _ (pc_pair p t Hp) (∅, true)) as E. unfold parse_piece in E.
      destruct t as [|z rest] eqn:Ez; [done|]. rewrite <- Ez in *. assert (index_byte "=" t = Some i) as Ei.
      { rewrite Et at 1. rewrite index_byte_app by done. f_equal. apply take_length_le.
        apply (f_equal length) in Et. rewrite app_length in Et. cbn in Et. rewrite take_length, drop_length in Et. lia. }
      rewrite Ei, Hk in E. apply (f_equal snd) in E. cbn in E. done.
  - pose proof Ei as Hi. apply index_byte_none in Ei. destruct (QueryUnescape t) as [k|] eqn:Ek.
    + left. exists (k, []). apply pt_name; [|done]. apply unescape_complete; [|done]. intros a Ha Ht. unfold L in Ha; cbn in Ha. rewrite !elem_of_cons, elem_of_nil in Ha.
      destruct Ha as [->|[->|[->|[->|[->|[]]]]]]; tauto.
    + right. intros [p Hp]. pose proof (piece_parsed _ _ _ (pc_pair p t Hp) (∅, true)) as E. unfold parse_piece in E.
      destruct t as [|z rest] eqn:Ez; [done|]. rewrite <- Ez in *. rewrite Hi, Ek in E. apply (f_equal snd) in E. cbn in E. done.
Qed.

(** ** The loop *)
Lemma piece_avoids t ps ok c : c ∈ L "&;" -> piece t ps ok -> c ∉ t.
Proof.
  intros Hc [|p t' H|t' _ H1 H2 _]; [apply not_elem_of_nil|by eapply pair_avoids|].
  unfold L in Hc; cbn in Hc. rewrite !elem_of_cons, elem_of_nil in Hc. destruct Hc as [->|[->|[]]]; done.
Qed.
Lemma cut_any_app t c q : "&"%char ∉ t -> ";"%char ∉ t -> c ∈ L "&;" -> cut_any (t ++ c :: q) = (t, Some q).
Proof.
  intros H1 H2 Hc. induction t as [|a t IH]; cbn.
  - unfold L in Hc; cbn in Hc. rewrite !elem_of_cons, elem_of_nil in Hc. destruct Hc as [->|[->|[]]]; reflexivity.
  - apply not_elem_of_cons in H1 as [H1 H1'], H2 as [H2 H2'].
    assert (Ascii.eqb a "&" = false) as -> by (apply Ascii.eqb_neq; congruence).
    assert (Ascii.eqb a ";" = false) as -> by (apply Ascii.eqb_neq; congruence). cbn. by rewrite IH.
Qed.
Lemma cut_any_none t : "&"%char ∉ t -> ";"%char ∉ t -> cut_any t = (t, None).
Proof.
  intros H1 H2. induction t as [|a t IH]; cbn; [done|].
  apply not_elem_of_cons in H1 as [H1 H1'], H2 as [H2 H2'].
  assert (Ascii.eqb a "&" = false) as -> by (apply Ascii.eqb_neq; congruence).
  assert (Ascii.eqb a ";" = false) as -> by (apply Ascii.eqb_neq; congruence). cbn. by rewrite IH.
Qed.
Lemma cut_any_split q t rest : cut_any q = (t, rest) -> "&"%char ∉ t /\ ";"%char ∉ t /\
  match rest with Some q' => exists c, c ∈ L "&;" /\ q = t ++ c :: q' | None => q = t end.
Proof.
  revert t rest. induction q as [|a q IH]; intros t rest H; cbn in H.
  - injection H as <- <-. repeat split; try apply not_elem_of_nil; done.
  - destruct (Ascii.eqb a "&") eqn:E1; [|destruct (Ascii.eqb a ";") eqn:E2]; cbn in H.
    + injection H as <- <-. apply Ascii.eqb_eq in E1 as ->. repeat split; try apply not_elem_of_nil. exists "&"%char. split; [unfold L; cbn; byte_in|done].
    + injection H as <- <-. apply Ascii.eqb_eq in E2 as ->. repeat split; try apply not_elem_of_nil. exists ";"%char. split; [unfold L; cbn; byte_in|done].
    + destruct (cut_any q) as [p rest'] eqn:Ec. injection H as <- <-. destruct (IH p rest' eq_refl) as (I1 & I2 & I3).
      apply Ascii.eqb_neq in E1, E2. rewrite !not_elem_of_cons. repeat split; try congruence; try done.
      destruct rest' as [q'|]; [destruct I3 as (c & Hc & ->); by exists c|by subst].
Qed.
Definition add_all (m : values) (ps : list (gostr * gostr)) : values := fold_left (fun m p => v_add m (fst p) (snd p)) ps m.
Lemma parse_query_text q ps ok : query_text q ps ok -> forall fuel st, length q < fuel ->
  parse_query fuel q st = Some (add_all (fst st) ps, snd st && ok).
Proof.
  assert (forall fuel st, 0 < fuel -> parse_query fuel [] st = Some st) as Hnil by (intros [|fuel] st H; [lia|done]).
  induction 1 as [t ps ok H|t ps ok c q ps' ok' H Hc Hq IH]; intros fuel st Hf.
  - destruct fuel as [|fuel]; [lia|]. destruct t as [|a t'] eqn:E.
    + assert (ps = [] /\ ok = true) as [-> ->].
      { inversion H as [|p t0 Hp|]; subst; [done| |done]. exfalso. inversion Hp as [k v tk tv _ _ E1 E2|k tk _ Hne E1 E2]; [|done]. by destruct tk. }
      cbn. rewrite andb_true_r. by destruct st.
    + rewrite <- E in *. pose proof (piece_avoids _ _ _ "&" ltac:(unfold L; cbn; byte_in) H) as H1. pose proof (piece_avoids _ _ _ ";" ltac:(unfold L; cbn; byte_in) H) as H2.
      cbn [parse_query]. rewrite cut_any_none by done. rewrite (piece_parsed _ _ _ H).
      rewrite E in Hf |- *. rewrite Hnil by (cbn in Hf; lia). done.
  - destruct fuel as [|fuel]; [lia|]. cbn [parse_query].
    pose proof (piece_avoids _ _ _ "&" ltac:(unfold L; cbn; byte_in) H) as H1. pose proof (piece_avoids _ _ _ ";" ltac:(unfold L; cbn; byte_in) H) as H2.
    rewrite cut_any_app by done. rewrite (piece_parsed _ _ _ H). rewrite app_length in Hf. cbn in Hf.
    destruct (t ++ c :: q) as [|z rest] eqn:E; [by destruct t|]. rewrite IH by lia. cbn [fst snd]. unfold add_all. by rewrite fold_left_app, andb_assoc.
Qed.
Lemma ParseQuery_text q ps ok : query_text q ps ok -> ParseQuery q = (add_all ∅ ps, ok).
Proof. intros H. unfold ParseQuery. rewrite (parse_query_text _ _ _ H) by lia. done. Qed.
(** every query is such a text, so that the fuel always suffices *)
Lemma query_text_total q : exists ps ok, query_text q ps ok.
Proof.
  remember (length q) as n eqn:Hn. assert (length q <= n) as Hle by lia. clear Hn. revert q Hle.
  induction n as [|n IH]; intros q Hle.
  { destruct q; [|cbn in Hle; lia]. eexists _, _. apply qt_last, pc_empty. }
  destruct (cut_any q) as [t rest] eqn:E. apply cut_any_split in E as (H1 & H2 & H3).
  destruct (piece_total t H1 H2) as (ps & ok & Hp). destruct rest as [q'|].
  - destruct H3 as (c & Hc & ->). rewrite app_length in Hle. cbn in Hle. destruct (IH q' ltac:(lia)) as (ps' & ok' & Hq).
    eexists _, _. by eapply qt_more.
  - subst. eexists _, _. by apply qt_last.
Qed.
Lemma ParseQuery_fuel q : parse_query (S (length q)) q (∅, true) = Some (ParseQuery q).
Proof.
  destruct (query_text_total q) as (ps & ok & H). rewrite (ParseQuery_text _ _ _ H). rewrite (parse_query_text _ _ _ H) by lia. done.
Qed.

(** ** What the form holds *)
Lemma values_of_app name ps qs : values_of name (ps ++ qs) = values_of name ps ++ values_of name qs.
Proof. unfold values_of. by rewrite List.filter_app, map_app. Qed.
Lemma lookup_v_add (m : values) k v (name : gostr) : v_add m k v !! name =
  if decide (name = k) then Some (match m !! k with Some vs => vs | None => [] end ++ [v]) else m !! name.
Proof. unfold v_add. case_decide as E; [subst; apply lookup_insert|by apply lookup_insert_ne]. Qed.
Lemma holds_add f ps k v : holds f ps -> holds (v_add f k v) (ps ++ [(k, v)]).
Proof.
  intros H name. rewrite lookup_v_add, values_of_app. unfold values_of at 2. cbn [List.filter fst].
  destruct (decide (name = k)) as [->|E].
  - rewrite bool_decide_eq_true_2 by done. cbn. rewrite (H k). destruct (values_of k ps); reflexivity.
  - rewrite bool_decide_eq_false_2 by congruence. cbn. rewrite app_nil_r. apply H.
Qed.
Lemma holds_empty : holds ∅ [].
Proof. intros name. apply lookup_empty. Qed.
Lemma add_all_holds f ps qs : holds f ps -> holds (add_all f qs) (ps ++ qs).
Proof.
  revert f ps. induction qs as [|[k v] qs IH]; intros f ps H; cbn; [by rewrite app_nil_r|].
  change (k, v) with ((k, v)). replace (ps ++ (k, v) :: qs) with ((ps ++ [(k, v)]) ++ qs) by (by rewrite <- app_assoc).
  apply IH. by apply holds_add.
Qed.
Lemma ParseQuery_holds q ps ok : query_text q ps ok -> holds (fst (ParseQuery q)) ps /\ snd (ParseQuery q) = ok.
Proof.
  intros H. rewrite (ParseQuery_text _ _ _ H). split; [|done]. apply (add_all_holds ∅ []). apply holds_empty.
Qed.
Lemma copy_holds f g ps qs : holds f ps -> holds g qs -> holds (copyValues f g) (ps ++ qs).
Proof.
  intros Hf Hg name. unfold copyValues. rewrite lookup_union_with, Hf, Hg, values_of_app.
  destruct (values_of name ps), (values_of name qs); cbn; rewrite ?app_nil_r; reflexivity.
Qed.

(** ** The forms of requests *)
Lemma asks_raw r q : asks r q -> raw_query r = q.
Proof.
  unfold raw_query. intros [H|p q' E H].
  - apply index_byte_none in H as ->. done.
  - rewrite E. change (L "?" ++ q') with ("?"%char :: q'). rewrite index_byte_app by done. rewrite drop_app_ge by lia.
    replace (S (length p) - length p) with 1 by lia. done.
Qed.
Lemma raw_asks r : asks r (raw_query r).
Proof.
  unfold raw_query. destruct (index_byte "?" (rq_uri r)) as [i|] eqn:E.
  - apply index_byte_some in E as [H1 H2]. eapply asks_query; [exact H2|done].
  - apply index_byte_none in E. by apply asks_nothing.
Qed.
Lemma sends_dec r : (seqb (rq_method r) (L "POST") || seqb (rq_method r) (L "PUT") || seqb (rq_method r) (L "PATCH")) = true <-> sends_body r.
Proof. unfold sends_body. rewrite !orb_true_iff, !seqb_true, !elem_of_cons, elem_of_nil. tauto. Qed.
Lemma content_type_eq r : (if seqb (h_get (rq_header r) (L "Content-Type")) [] then L "application/octet-stream" else h_get (rq_header r) (L "Content-Type")) = content_type r.
Proof. unfold content_type. destruct (h_get _ _); reflexivity. Qed.
Lemma ParseForm_sent media r body ps ok : sent media r body ps ok ->
  exists f rest, ParseForm media r body = (f, ok, rest) /\ holds f ps /\
    (~ sends_body r \/ fst (media (content_type r)) <> form_type -> rest = fst body).
Proof.
  intros H. unfold ParseForm.
  assert (forall q qs qok, asks r q -> query_text q qs qok -> holds (fst (ParseQuery (raw_query r))) qs /\ snd (ParseQuery (raw_query r)) = qok) as Hq.
  { intros q qs qok Ha Ht. rewrite (asks_raw _ _ Ha). by apply ParseQuery_holds. }
  assert (forall f qs, holds f qs -> holds (copyValues ∅ f) qs) as H0.
  { intros f qs Hf. apply (copy_holds ∅ f [] qs); [apply holds_empty|done]. }
  destruct H as [q ps ok Hs Ha Ht|q ps ok t Hs Hm Hty Ha Ht|q ps ok bs ok' Hs Hm Hl Hb Hbt Ha Ht|q ps ok t Hs Hm Hty Ha Ht|q ps ok bs ok' Hs Hm Hl Hb Hbt Ha Ht|q ps ok b Hs Hm Hor Ha Ht];
    destruct (Hq _ _ _ Ha Ht) as [Hh He]; destruct (ParseQuery (raw_query r)) as [vs e]; cbn [fst snd] in Hh, He; subst e.
  - destruct (_ || _) eqn:E; [by apply sends_dec in E|]. eexists _, _. split; [reflexivity|]. split; [by apply H0|done].
  - apply sends_dec in Hs as ->. unfold parsePostForm. cbn zeta. rewrite content_type_eq, Hm.
    apply seqb_false in Hty. unfold form_type in Hty. rewrite Hty. eexists _, _. split; [reflexivity|]. split; [by apply H0|done].
  - pose proof Hs as Hs'. apply sends_dec in Hs as ->. unfold parsePostForm. cbn zeta. rewrite content_type_eq, Hm. unfold form_type. rewrite seqb_refl.
    destruct body as [data eof]. cbn [fst snd] in *. subst eof. unfold maxFormSize. apply N.leb_le in Hl as ->.
    destruct (ParseQuery_holds _ _ _ Hbt) as [Hbh Hbe]. destruct (ParseQuery data) as [bvs be]. cbn [fst snd] in Hbh, Hbe. subst be. cbn [andb].
    eexists _, _. split; [reflexivity|]. split; [by apply copy_holds|]. intros [?|Hn]; done.
  - apply sends_dec in Hs as ->. unfold parsePostForm. cbn zeta. rewrite content_type_eq, Hm.
    apply seqb_false in Hty. unfold form_type in Hty. rewrite Hty. eexists _, _. split; [reflexivity|]. split; [by apply H0|done].
  - pose proof Hs as Hs'. apply sends_dec in Hs as ->. unfold parsePostForm. cbn zeta. rewrite content_type_eq, Hm. unfold form_type. rewrite seqb_refl.
    destruct body as [data eof]. cbn [fst snd] in *. subst eof. unfold maxFormSize. apply N.leb_le in Hl as ->.
    destruct (ParseQuery_holds _ _ _ Hbt) as [Hbh Hbe]. destruct (ParseQuery data) as [bvs be]. cbn [fst snd] in Hbh, Hbe. subst be. cbn [andb].
    eexists _, _. split; [reflexivity|]. split; [by apply copy_holds|]. intros [?|Hn]; done.
  - pose proof Hs as Hs'. apply sends_dec in Hs as ->. unfold parsePostForm. cbn zeta. rewrite content_type_eq, Hm. unfold form_type. rewrite seqb_refl.
    destruct body as [data eof]. cbn [fst snd] in *. unfold maxFormSize.
    destruct (N.of_nat (length data) <=? 10485760)%N eqn:El.
    + apply N.leb_le in El. destruct Hor as [Hor|Hor]; [lia|]. subst eof. eexists _, _. split; [reflexivity|]. split; [by apply H0|]. intros [?|Hn]; done.
    + eexists _, _. split; [reflexivity|]. split; [by apply H0|]. intros [?|Hn]; done.
Qed.
Lemma sent_total media r body : exists ps ok, sent media r body ps ok.
Proof.
  pose proof (raw_asks r) as Ha. destruct (query_text_total (raw_query r)) as (ps & ok & Hq).
  destruct (bool_decide (sends_body r)) eqn:Eb.
  2:{ apply bool_decide_eq_false in Eb. eexists _, _. by eapply sent_query. }
  apply bool_decide_eq_true in Eb. destruct (media (content_type r)) as [t b] eqn:Hm.
  destruct (decide (t = form_type)) as [->|Hne].
  2:{ destruct b; eexists _, _; [by eapply sent_other|by eapply sent_badtype]. }
  destruct (decide (N.of_nat (length (fst body)) <= 10485760)%N) as [Hl|Hl].
  2:{ eexists _, _. eapply sent_broken; [done|exact Hm|left; lia|done|done]. }
  destruct (snd body) eqn:Hs.
  2:{ eexists _, _. eapply sent_broken; [done|exact Hm|by right|done|done]. }
  destruct (query_text_total (fst body)) as (bs & ok' & Hb).
  destruct b; eexists _, _; [by eapply sent_form|by eapply sent_badform].
Qed.

(** ** All pairs can be sent *)
Lemma digit_of n : (n < 16)%N -> exists x, hex_val x = Some n /\ x ∈ L "0123456789ABCDEF%=&".
Proof.
  intros Hn. exists (nth (N.to_nat n) (L "0123456789ABCDEF") " "%char).
  assert (N.to_nat n < 16) as H by lia. rewrite <- (N2Nat.id n) at 2. revert H. generalize (N.to_nat n). clear. intros i H.
  do 16 (destruct i as [|i]; [split; [reflexivity|apply (bool_decide_eq_true _); vm_compute; reflexivity]|]). lia.
Qed.
Lemma spelled_any stops s : exists t, spelled stops s t /\ Forall (fun a => a ∈ L "0123456789ABCDEF%=&") t.
Proof.
  induction s as [|a s (t & IH & Ht)]; [exists []; split; constructor|].
  assert (N_of_ascii a < 256)%N as Hlt by apply N_ascii_bounded.
  destruct (digit_of (N_of_ascii a / 16)%N) as (x & Hx & Hx'); [apply N.div_lt_upper_bound; lia|].
  destruct (digit_of (N_of_ascii a mod 16)%N) as (y & Hy & Hy'); [apply N.mod_lt; lia|].
  exists ("%"%char :: x :: y :: t). split.
  - eapply sp_hex; [exact Hx|exact Hy| |done]. apply N.div_mod. lia.
  - constructor; [unfold L; cbn; rewrite !elem_of_cons; tauto|]. constructor; [done|]. by constructor.
Qed.
Lemma pairs_text ps : exists q, query_text q ps true /\ Forall (fun a => a ∈ L "0123456789ABCDEF%=&") q.
Proof.
  induction ps as [|[k v] ps (q & IH & Hq)].
  - exists []. split; [apply qt_last, pc_empty|constructor].
  - destruct (spelled_any (L "%+&;=") k) as (tk & Hk & Hk'). destruct (spelled_any (L "%+&;") v) as (tv & Hv & Hv').
    exists ((tk ++ L "=" ++ tv) ++ "&"%char :: q). split.
    + apply (qt_more _ [(k, v)] true _ _ _ true); [apply pc_pair; by apply pt_both|unfold L; cbn; rewrite !elem_of_cons; tauto|done].
    + rewrite !Forall_app. split; [split; [done|split; [|done]]|].
      * constructor; [unfold L; cbn; rewrite !elem_of_cons; tauto|constructor].
      * constructor; [unfold L; cbn; rewrite !elem_of_cons; tauto|done].
Qed.
Lemma spelled_check stops s t : QueryUnescape t = Some s ->
  forallb (fun a => negb (bool_decide (a ∈ stops)) || Ascii.eqb a "%" || Ascii.eqb a "+") t = true -> spelled stops s t.
Proof.
  intros H Hc. apply unescape_complete; [|done]. intros a Ha Ht. rewrite forallb_forall in Hc. apply elem_of_list_In in Ht. apply Hc in Ht.
  rewrite bool_decide_eq_true_2 in Ht by done. cbn in Ht. apply orb_true_iff in Ht as [Ht|Ht]; apply Ascii.eqb_eq in Ht; tauto.
Qed.
