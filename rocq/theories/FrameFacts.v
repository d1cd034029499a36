(** The lines of a header that the server writes. *)
From Coq Require Import ZArith NArith.
From Verif Require Import Base GoStr GoStrFacts UtilSpec Strconv StrconvFacts UtilFacts Header RequestSpec RequestFacts RoutingFacts Router Ctx Engine NetServe NetFrame FrameSpec FrameRead.
Local Open Scope Z_scope.

(** ** Values *)
Lemma drop_while_head f s a x : drop_while f s = a :: x -> f a = false.
Proof. induction s as [|b s IH]; cbn; [done|]. destruct (f b) eqn:E; [done|]. intros [= -> _]. done. Qed.
Lemma drop_while_in f s a : a ∈ drop_while f s -> a ∈ s.
Proof. induction s as [|b s IH]; cbn; [done|]. destruct (f b); [|done]. intros H. right. by apply IH. Qed.
Lemma drop_while_suffix f s : exists p, s = p ++ drop_while f s.
Proof. induction s as [|b s [p IH]]; cbn; [by exists []|]. destruct (f b); [|by exists []]. exists (b :: p). cbn. by f_equal. Qed.
Lemma drop_while_id f s : (forall a x, s = a :: x -> f a = false) -> drop_while f s = s.
Proof. destruct s as [|a s]; [done|]. intros H. cbn. by rewrite (H a s). Qed.
Lemma trim_in v a : a ∈ TrimString v -> a ∈ v.
Proof. unfold TrimString. intros H. apply elem_of_rev, drop_while_in in H. apply elem_of_rev, drop_while_in in H. done. Qed.
Lemma blank_space a : blank a -> ascii_space a = true.
Proof. by intros [->| ->]. Qed.
Lemma clean_line v : one_line (clean v).
Proof.
  unfold clean. set (w := map newline_to_space v).
  assert (bare w) as Hw.
  { unfold w, bare. split; intros Hin; apply elem_of_list_In, in_map_iff in Hin as (b & Hb & _); unfold newline_to_space in Hb;
      destruct (Ascii.eqb_spec b "010"); [done| |done|]; destruct (Ascii.eqb_spec b "013"); done. }
  split_and!.
  - destruct Hw as [H1 H2]. split; intros Hin; apply trim_in in Hin; done.
  - intros a x Hx Hb. unfold TrimString in Hx. set (u := drop_while ascii_space w) in *.
    destruct (drop_while_suffix ascii_space (rev u)) as [p Hp].
    assert (u = a :: x ++ rev p) as Hu.
    { apply (f_equal (@rev ascii)) in Hp. rewrite rev_involutive, rev_app_distr, Hx in Hp. done. }
    apply drop_while_head in Hu. by rewrite blank_space in Hu.
  - intros a x Hx Hb. unfold TrimString in Hx. apply (f_equal (@rev ascii)) in Hx. rewrite rev_involutive, rev_app_distr in Hx.
    apply drop_while_head in Hx. by rewrite blank_space in Hx.
Qed.
Lemma bare_newline v : bare v -> map newline_to_space v = v.
Proof.
  intros [H1 H2]. induction v as [|a v IH]; [done|]. cbn. f_equal; [|apply IH; set_solver].
  unfold newline_to_space. destruct (Ascii.eqb_spec a "010") as [->|]; [exfalso; apply H2; left|].
  destruct (Ascii.eqb_spec a "013") as [->|]; [exfalso; apply H1; left|]. done.
Qed.
Lemma clean_id v : one_line v -> clean v = v.
Proof.
  intros (Hb & H1 & H2). unfold clean. rewrite bare_newline by done.
  assert (forall a, a ∈ v -> ~ blank a -> ascii_space a = false) as Hs.
  { intros a Ha Hn. unfold ascii_space. destruct Hb as [B1 B2].
    destruct (Ascii.eqb_spec a " ") as [->|]; [exfalso; apply Hn; by left|].
    destruct (Ascii.eqb_spec a (ascii_of_nat 9)) as [->|]; [exfalso; apply Hn; by right|].
    destruct (Ascii.eqb_spec a (ascii_of_nat 10)) as [->|]; [done|].
    destruct (Ascii.eqb_spec a (ascii_of_nat 13)) as [->|]; [done|]. done. }
  unfold TrimString. rewrite (drop_while_id _ v).
  2:{ intros a x ->. apply Hs; [left|]. by eapply H1. }
  rewrite drop_while_id; [apply rev_involutive|].
  intros a x Hx. apply (f_equal (@rev ascii)) in Hx. rewrite rev_involutive in Hx. cbn [rev] in Hx. apply Hs.
  - rewrite Hx. apply elem_of_app. right. left.
  - by eapply H2.
Qed.
Lemma one_line_lit v : clean v = v -> one_line v.
Proof. intros <-. apply clean_line. Qed.
Lemma digits_line v : Forall is_digit v -> one_line v.
Proof.
  intros H. assert (forall a, a ∈ v -> ~ blank a) as Hb.
  { intros a Ha Hb. rewrite Forall_forall in H. apply H in Ha. unfold is_digit in Ha. destruct Hb as [->| ->]; vm_compute in Ha; destruct Ha as [Ha _]; by apply Ha. }
  split_and!; [by apply digits_bare| |].
  - intros a x ->. apply Hb. left.
  - intros a x ->. apply Hb. apply elem_of_app. right. left.
Qed.
Lemma itoa_line n : 0 <= n -> one_line (itoa n).
Proof. intros H. apply itoa_udecimal in H as (_ & H & _). by apply digits_line. Qed.

(** ** Fields *)
Definition field_ok (f : gostr * gostr) : Prop := field_name (fst f) /\ one_line (snd f).
Lemma fields_text fs : Forall field_ok fs -> lines_text fs (flat_map field_line fs).
Proof.
  induction 1 as [|[n v] fs [Hn Hv] _ IH]; [constructor|]. cbn [flat_map]. constructor; [|done].
  unfold field_line. cbn [fst snd] in *. apply (line_is n v [" "%char] []); [done|done| |constructor].
  constructor; [by left|constructor].
Qed.
Lemma insert_key_perm x l : insert_key x l ≡ₚ x :: l.
Proof. induction l as [|y l IH]; cbn; [done|]. destruct (bytes_le x.1 y.1); [done|]. rewrite IH. apply Permutation_swap. Qed.
Lemma sorted_perm h : sorted_keys h ≡ₚ map_to_list h.
Proof.
  unfold sorted_keys. generalize (map_to_list h). intros l. induction l as [|x l IH]; cbn; [done|]. by rewrite insert_key_perm, IH.
Qed.
Lemma sorted_in h k vs : (k, vs) ∈ sorted_keys h <-> h !! k = Some vs.
Proof. rewrite sorted_perm. apply elem_of_map_to_list. Qed.
Lemma header_fields_ok out h : names_ok h -> Forall field_ok (header_fields out h).
Proof.
  intros Hh. apply Forall_forall. intros [n v] Hin. apply elem_of_list_In, in_flat_map in Hin as ([k vs] & Hk & Hin). cbn [fst snd] in Hin.
  apply elem_of_list_In, sorted_in in Hk. destruct (existsb (seqb k) out); [done|].
  apply in_map_iff in Hin as (w & [= <- <-] & _). split; cbn [fst snd].
  - apply Hh. by eexists.
  - apply clean_line.
Qed.
Lemma field_values_app k a b : field_values k (a ++ b) = field_values k a ++ field_values k b.
Proof. induction a as [|f a IH]; cbn; [done|]. destruct (seqb _ _); cbn; by rewrite IH. Qed.
(** names of one response are compared by their canonical spelling *)
Lemma name_test k k' : is_token k -> is_token k' -> seqb (map lower_byte k) (map lower_byte k') = seqb (canon k) (canon k').
Proof.
  intros H H'. pose proof (canon_same k k' H H') as Hc. unfold same_name in Hc.
  destruct (seqb (canon k) (canon k')) eqn:E.
  - apply seqb_true in E. apply Hc in E. rewrite E. apply seqb_refl.
  - apply seqb_false in E. apply seqb_false. tauto.
Qed.
Lemma header_values_list k out l : is_token k -> NoDup (l.*1) -> (forall k' (vs : list gostr), (k', vs) ∈ l -> field_name k' /\ canon k' = k') ->
  let fs := flat_map (fun kv : gostr * list gostr => if existsb (seqb (fst kv)) out then [] else map (fun v => (fst kv, clean v)) (snd kv)) l in
  (forall vs, (canon k, vs) ∈ l -> field_values k fs = if existsb (seqb (canon k)) out then [] else map clean vs) /\
  ((forall vs, (canon k, vs) ∉ l) -> field_values k fs = []).
Proof.
  intros Hk. induction l as [|[k' vs'] l IH]; intros Hnd Hl; cbn [flat_map fst snd].
  { split; [|done]. intros vs Hin. by apply elem_of_nil in Hin. }
  cbn in Hnd. apply NoDup_cons in Hnd as [Hni Hnd]. specialize (IH Hnd).
  destruct IH as [IH1 IH2]. { intros k2 vs2 H2. apply (Hl k2 vs2). by right. }
  destruct (Hl k' vs') as [[_ Ht] Hc]; [left|].
  assert (forall vs2, field_values k (map (fun v => (k', clean v)) vs2) = if seqb k' (canon k) then map clean vs2 else []) as Hv.
  { intros vs2. induction vs2 as [|v vs2 IHv]; cbn [map field_values fst snd]; [by destruct (seqb _ _)|].
    rewrite name_test by done. rewrite Hc. destruct (seqb k' (canon k)) eqn:E; [|done]. cbn [map]. by f_equal. }
  rewrite field_values_app. split.
  - intros vs Hin. apply elem_of_cons in Hin as [[= <- <-]|Hin].
    + rewrite IH2, app_nil_r.
      2:{ intros vs3 Hin. apply Hni. apply elem_of_list_fmap. by exists (canon k, vs3). }
      destruct (existsb (seqb (canon k)) out); [done|]. by rewrite Hv, seqb_refl.
    + rewrite (IH1 _ Hin). assert (k' <> canon k) as Hne.
      { intros ->. apply Hni. apply elem_of_list_fmap. by exists (canon k, vs). }
      apply seqb_false in Hne. destruct (existsb (seqb k') out); [done|]. by rewrite Hv, Hne.
  - intros Hno. rewrite IH2, app_nil_r.
    2:{ intros vs Hin. apply (Hno vs). by right. }
    destruct (existsb (seqb k') out); [done|]. rewrite Hv. destruct (seqb k' (canon k)) eqn:E; [|done].
    apply seqb_true in E as ->. exfalso. apply (Hno vs'). left.
Qed.
Lemma header_values k out h : is_token k -> names_ok h ->
  field_values k (header_fields out h) = if existsb (seqb (canon k)) out then [] else map clean (h_values h k).
Proof.
  intros Hk Hh. destruct (header_values_list k out (sorted_keys h) Hk) as [H1 H2].
  - rewrite sorted_perm. apply NoDup_fst_map_to_list.
  - intros k' vs Hin. apply sorted_in in Hin. apply Hh. by eexists.
  - unfold header_fields, h_values. destruct (h !! canon k) as [vs|] eqn:E.
    + apply H1. by apply sorted_in.
    + rewrite H2; [by destruct (existsb _ _)|]. intros vs Hin. apply sorted_in in Hin. congruence.
Qed.

(** what TrimString cuts off *)
Lemma drop_while_parts f s : exists p, s = p ++ drop_while f s /\ Forall (fun a => f a = true) p.
Proof.
  induction s as [|b s (p & IH & Hp)]; cbn; [by exists []|]. destruct (f b) eqn:E; [|by exists []].
  exists (b :: p). cbn. split; [by f_equal|by constructor].
Qed.
Lemma trim_parts v : exists o o', v = o ++ TrimString v ++ o' /\ Forall (fun a => ascii_space a = true) o /\ Forall (fun a => ascii_space a = true) o'.
Proof.
  unfold TrimString. destruct (drop_while_parts ascii_space v) as (o & E & Ho). set (m := drop_while ascii_space v) in *.
  destruct (drop_while_parts ascii_space (rev m)) as (o' & E' & Ho'). exists o, (rev o'). split_and!; [|done|].
  - rewrite E. f_equal. apply (f_equal (@rev ascii)) in E'. rewrite rev_involutive, rev_app_distr in E'. exact E'.
  - rewrite Forall_forall in *. intros a Ha. apply Ho'. apply elem_of_list_In, in_rev, elem_of_list_In. exact Ha.
Qed.
Lemma spaces_blank v a : a ∈ map newline_to_space v -> ascii_space a = true -> blank a.
Proof.
  intros Hin Hs. apply elem_of_list_In, in_map_iff in Hin as (b & Hb & _). unfold newline_to_space in Hb.
  destruct (Ascii.eqb_spec b "010"); [subst; by left|]. destruct (Ascii.eqb_spec b "013"); [subst; by left|]. cbn [orb] in Hb. subst b.
  unfold ascii_space in Hs. unfold blank.
  repeat (apply orb_true_iff in Hs as [Hs|Hs]); apply Ascii.eqb_eq in Hs; subst a; [by left|by right|exfalso; by apply n|exfalso; by apply n0].
Qed.
