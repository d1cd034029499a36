(** Replies on a connection: replies that are cut, replies that announce others. *)
From Coq Require Import ZArith NArith.
From Verif Require Import Base GoStr GoStrFacts UtilSpec Strconv StrconvFacts UtilFacts Header RequestSpec RequestFacts RoutingFacts Router Ctx Engine NetServe NetRangeFacts NetFrame FrameSpec FrameClaim FrameRead FrameFacts FrameTop FrameSend.
Local Open Scope Z_scope.

Section Frame.
Variable has_token : gostr -> gostr -> bool.
Variable status_text : Z -> option gostr.
Variable date : gostr.
Variable sniff : gostr -> gostr.
Variables keep unread : bool.
Variable size : nat.
Variable r : request.
Hypothesis date_line : one_line date.
Hypothesis text_line : forall code t, status_text code = Some t -> bare t.
Hypothesis sniff_line : forall d, one_line (sniff d).
Hypothesis sniff_window : forall a b, (size <= length a)%nat -> sniff (a ++ b) = sniff a.
Local Notation writeHeader := (writeHeader has_token date sniff keep unread r).
Local Notation answer := (answer has_token status_text date sniff keep unread size r).
Local Notation torn := (torn has_token status_text date sniff keep unread size r).
Local Notation head_bytes := (head_bytes status_text r).
Local Notation is_head := (is_head r).

(** ** Replies that are cut *)
Lemma never code fs t s : head_text code fs t -> 200 <= code -> (forall b rest, ~ body_text false code fs s b rest) -> forall m rest, ~ reads false (t ++ s) m rest.
Proof.
  intros Hh Hc Hno m rest H. inversion H as [code' fs' t' s' b' r' Hh' Hc' Hb' Heq|code' fs' t' s' m2 r' Hh' Hc' Hn' Hr' Heq]; subst.
  - destruct (head_one _ _ _ _ _ _ _ _ Hh' Hh Heq) as (-> & -> & ->). by eapply Hno.
  - destruct (head_one _ _ _ _ _ _ _ _ Hh' Hh Heq) as (-> & _). lia.
Qed.
Lemma nothing head m rest : ~ reads head [] m rest.
Proof. intros H. inversion H as [c fs t s b r0 Hh Hc Hb Heq|c fs t s m' r0 Hh Hc Hn Hr Heq]; destruct Hh; done. Qed.
Lemma short_body code fs s z n : field_values (L "Transfer-Encoding") fs = [] -> field_values (L "Content-Length") fs = [z] -> udecimal z n ->
  ~ bodiless false code -> Z.of_nat (length s) < n -> forall b rest, ~ body_text false code fs s b rest.
Proof.
  intros Hte Hcl (_ & _ & ->) Hnb Hs b rest H. inversion H as [r0 Hb0|b0 t0 r0 Hb0 E|n' b0 r0 Hb0 E0 E Hu|b0 Hb0 E0 E]; subst; try done.
  - rewrite Hte in E. done.
  - rewrite Hcl in E. injection E as <-. destruct Hu as (_ & _ & Hu). rewrite app_length in Hs. lia.
  - rewrite Hcl in E. done.
Qed.
Lemma chunked_some b t : chunked_text b t -> t <> [].
Proof. intros H E. destruct H; apply app_eq_nil in E as [_ E]; done. Qed.
Lemma unended ds : Forall (fun p => p <> []) ds -> forall b t rest, chunked_text b t -> t ++ rest <> flat_map chunk ds.
Proof.
  induction 1 as [|d ds Hd _ IH]; intros b t rest Ht E.
  - cbn [flat_map] in E. apply app_eq_nil in E as [E _]. by eapply chunked_some.
  - cbn [flat_map] in E. unfold chunk in E at 1. rewrite <- !app_assoc in E.
    assert (bare (format_N 16 (N.of_nat (length d)))) as Hb by (eapply hex_bare, hex_number_format).
    inversion Ht as [|d' data s t' Hd' Hs Ht']; subst; rewrite <- !app_assoc in E.
    + apply split_line in E as [E _]; [|apply zero_bare|done]. pose proof (hex_number_format (N.of_nat (length d))) as H.
      rewrite <- E in H. vm_compute in H. injection H as H. destruct d; [done|]. cbn [length] in H. lia.
    + apply split_line in E as [E E2]; [|by eapply hex_bare|done]. subst s. rewrite hex_number_format in Hs. injection Hs as Hs.
      apply app_inj_1 in E2 as [_ E2]; [|lia]. apply app_inv_head in E2. by eapply IH.
Qed.
Lemma admitted_less limit ps : forall n, (length (concat (admitted limit n ps)) <= length (concat ps))%nat.
Proof.
  induction ps as [|p ps IH]; intros n; [done|]. cbn [admitted concat]. rewrite app_length.
  destruct (seqb p []); [pose proof (IH n); lia|].
  destruct (match limit with Some m => _ | None => _ end); cbn [concat]; [pose proof (IH (n + Z.of_nat (length p))); lia|].
  rewrite app_length. pose proof (IH (n + Z.of_nat (length p))). lia.
Qed.
(** a body that is shorter than the handler declared *)
Theorem too_short w ps code h z n out closed :
  response_head w = (code, h) -> 200 <= code <= 999 -> plain_header h -> is_head = false -> ~ bodiless false code ->
  h_values h (L "Content-Length") = [z] -> udecimal z n -> n < 2 ^ 63 -> Z.of_nat (length (concat ps)) < n ->
  answer w ps = (out, closed) -> closed = true /\ forall m rest, ~ reads false out m rest.
Proof.
  intros Hrh Hcode Hp Hhd Hnb Hcl Hz Hn Hlt Hans.
  destruct (declared_set _ _ _ Hcl Hz Hn) as [Hd Hg].
  assert (body_allowed code = true) as Hal.
  { apply not_false_iff_true. intros E. apply Hnb. rewrite <- Hhd. apply (bodiless_iff has_token date). auto. }
  unfold NetFrame.answer in Hans. rewrite Hrh, Hd, Hal, Hhd in Hans.
  destruct (buffered_ok size (admitted (Some n) 0 ps)) as [_ Hcat]. destruct (buffered size _) as [late early]. cbn [fst snd] in Hcat.
  set (data := early ++ _) in *.
  assert (length (concat data) = length (concat (admitted (Some n) 0 ps))) as Hdata.
  { rewrite <- Hcat. unfold data. rewrite concat_app. destruct (seqb late []) eqn:E; [apply seqb_true in E; subst late; done|]. cbn [concat]. by rewrite app_nil_r. }
  pose proof (admitted_less (Some n) ps 0) as Hle.
  set (fr := match early with [] => _ | _ => _ end) in *.
  assert (exists dn p, fr = writeHeader code h (Some n) dn p) as (dn & p & Hfr) by (unfold fr; destruct early; eauto).
  clearbody fr. subst fr.
  assert (auto r code h dn p = false) as Ha.
  { unfold auto. rewrite Hg. assert (seqb z [] = false) as ->; [|by rewrite andb_false_r]. apply seqb_false. by destruct Hz. }
  assert (len r code h (Some n) dn p = Some n) as Hlen by (unfold len; by rewrite Ha).
  assert (chunking r code h (Some n) dn p = false) as Hck by (unfold chunking; rewrite Hlen; by rewrite andb_false_r).
  destruct (shape has_token date sniff keep unread r code h (Some n) dn p Hp) as (dels & conn & close & Hshape & _).
  assert (fr_length (writeHeader code h (Some n) dn p) = Some n /\ fr_chunking (writeHeader code h (Some n) dn p) = false) as (F1 & F2)
    by (rewrite Hshape; cbn [fr_length fr_chunking]; by rewrite Hlen, Hck).
  rewrite F1, F2 in Hans. injection Hans as <- <-. split.
  - cbn [negb andb]. assert ((n =? Z.of_nat (length (concat ps))) = false) as -> by (apply Z.eqb_neq; lia). by rewrite orb_true_r.
  - pose proof (fields_ok has_token date sniff keep unread r date_line sniff_line code h (Some n) dn p Hp) as Hok.
    apply (never code (fr_fields (writeHeader code h (Some n) dn p))); [apply (head_ok status_text r text_line); [lia|done]|lia|].
    apply (short_body _ _ _ z n); [|  |done|done|lia].
    + rewrite (values_te has_token date sniff keep unread r) by done. by rewrite Hck.
    + rewrite (values_length has_token date sniff keep unread r) by done.
      rewrite Hcl, Ha, app_nil_r. cbn [map]. f_equal. apply clean_id, digits_line. by destruct Hz as (_ & ? & _).
Qed.
(** the handler gave up *)
Theorem torn_unread w ps code h :
  response_head w = (code, h) -> 200 <= code <= 999 -> plain_header h -> is_head = false -> ~ bodiless false code ->
  (h_values h (L "Content-Length") = [] /\ at_least_11 r = true \/
   exists z n, h_values h (L "Content-Length") = [z] /\ udecimal z n /\ n < 2 ^ 63 /\ Z.of_nat (length (concat ps)) < n) ->
  forall m rest, ~ reads false (torn w ps) m rest.
Proof.
  intros Hrh Hcode Hp Hhd Hnb Hcase.
  assert (body_allowed code = true) as Hal.
  { apply not_false_iff_true. intros E. apply Hnb. rewrite <- Hhd. apply (bodiless_iff has_token date). auto. }
  unfold NetFrame.torn. rewrite Hrh, Hal, Hhd.
  destruct (buffered_ok size (admitted (declared h) 0 ps)) as [(_ & Hne & _) Hcat]. destruct (buffered size _) as [late early]. cbn [fst snd] in Hcat, Hne.
  destruct early as [|e early]; [apply nothing|].
  assert (auto r code h false e = false) as Ha by done.
  assert (len r code h (declared h) false e = declared h) as Hlen by done.
  destruct (shape has_token date sniff keep unread r code h (declared h) false e Hp) as (dels & conn & close & Hshape & _).
  assert (fr_chunking (writeHeader code h (declared h) false e) = chunking r code h (declared h) false e) as -> by (by rewrite Hshape).
  pose proof (fields_ok has_token date sniff keep unread r date_line sniff_line code h (declared h) false e Hp) as Hok.
  apply (never code (fr_fields (writeHeader code h (declared h) false e))); [apply (head_ok status_text r text_line); [lia|done]|lia|].
  pose proof (values_te has_token date sniff keep unread r code h (declared h) false e Hp) as Hte.
  destruct Hcase as [[Hcl H11]|(z & n & Hcl & Hz & Hn & Hlt)].
  - rewrite (declared_unset _ Hcl) in *. assert (chunking r code h None false e = true) as Hck by (unfold chunking; rewrite Hlen, Hhd, Hal, H11; done).
    rewrite Hck in *. intros b rest H. inversion H as [r0 Hb0|b0 t0 r0 Hb0 E Ht Heq|n0 b0 r0 Hb0 E|b0 Hb0 E]; subst; try done; try congruence.
    by eapply unended.
  - destruct (declared_set _ _ _ Hcl Hz Hn) as [Hd Hg]. rewrite Hd in *.
    assert (chunking r code h (Some n) false e = false) as Hck by (unfold chunking; rewrite Hlen; by rewrite andb_false_r). rewrite Hck in *.
    apply (short_body _ _ _ z n); [done| |done|done|].
    + rewrite (values_length has_token date sniff keep unread r) by done.
      rewrite Hcl, Ha, app_nil_r. cbn [map]. f_equal. apply clean_id, digits_line. by destruct Hz as (_ & ? & _).
    + pose proof (admitted_less (Some n) ps 0) as Hle. rewrite <- Hcat, app_length in Hle. lia.
Qed.
(** ** A reply that announces another one *)
Theorem announces w ps code h next m rest :
  response_head w = (code, h) -> 100 <= code <= 199 -> code <> 101 -> plain_header h ->
  reads is_head (fst (answer w ps) ++ next) m rest <-> reads is_head next m rest.
Proof.
  intros Hrh Hcode Hn Hp.
  assert (body_allowed code = false) as Hal.
  { unfold body_allowed. apply negb_false_iff, orb_true_iff. left. apply orb_true_iff. left. apply andb_true_iff. split; apply Z.leb_le; lia. }
  destruct (shape has_token date sniff keep unread r code h (declared h) true [] Hp) as (dels & conn & close & Hshape & _).
  assert (fr_chunking (writeHeader code h (declared h) true []) = false) as Hck by (rewrite Hshape; cbn [fr_chunking]; unfold chunking; by rewrite Hal, andb_false_r).
  assert (fst (answer w ps) = head_bytes code (writeHeader code h (declared h) true [])) as ->.
  { unfold NetFrame.answer. rewrite Hrh, Hal. unfold buffered. cbn [fold_left fst]. rewrite Hck. destruct is_head; apply app_nil_r. }
  pose proof (fields_ok has_token date sniff keep unread r date_line sniff_line code h (declared h) true [] Hp) as Hok.
  pose proof (head_ok status_text r text_line code _ ltac:(lia) Hok) as Hhead. split; intros H.
  - inversion H as [code' fs' t' s' b' r' Hh' Hc' Hb' Heq|code' fs' t' s' m2 r' Hh' Hc' Hn' Hr' Heq]; subst.
    + destruct (head_one _ _ _ _ _ _ _ _ Hh' Hhead Heq) as (-> & _). lia.
    + destruct (head_one _ _ _ _ _ _ _ _ Hh' Hhead Heq) as (-> & _ & ->). done.
  - by eapply reads_interim.
Qed.
End Frame.
