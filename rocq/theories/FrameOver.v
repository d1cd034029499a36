(** Replies on a connection: handlers that write more than they announced. *)
From Coq Require Import ZArith NArith.
From Verif Require Import Base GoStr GoStrFacts UtilSpec Strconv StrconvFacts UtilFacts Header RequestSpec RequestFacts RoutingFacts Router Ctx CtxFacts Engine EngineSpec NetServe NetRangeFacts
  NetFrame FrameSpec FrameClaim FrameRead FrameFacts FrameTop FrameSend FrameCut FrameConn FrameRun.
Local Open Scope Z_scope.

Lemma admitted_over n ps : forall k, n < k -> concat (admitted (Some n) k ps) = [].
Proof.
  induction ps as [|p ps IH]; intros k Hk; [done|]. cbn [admitted]. destruct (seqb p []); [by apply IH|].
  assert ((n <? k + Z.of_nat (length p)) = true) as -> by (apply Z.ltb_lt; lia). apply IH. lia.
Qed.
(** the pieces up to the announced length, and no more *)
Lemma admitted_prefix n ps : forall k, k <= n -> exists a b, ps = a ++ b /\ concat (admitted (Some n) k ps) = concat a /\ k + Z.of_nat (length (concat a)) <= n /\
  (b = [] \/ exists p b', b = p :: b' /\ n < k + Z.of_nat (length (concat a)) + Z.of_nat (length p)).
Proof.
  induction ps as [|p ps IH]; intros k Hk.
  - exists [], []. split_and!; [done|done|cbn; lia|by left].
  - cbn [admitted]. destruct (seqb p []) eqn:Ep.
    + apply seqb_true in Ep. subst p. destruct (IH k Hk) as (a & b & -> & H1 & H2 & H3). exists ([] :: a), b. done.
    + destruct (n <? k + Z.of_nat (length p)) eqn:Hn.
      * apply Z.ltb_lt in Hn. exists [], (p :: ps). rewrite admitted_over by lia. split_and!; [done|done|cbn; lia|].
        right. exists p, ps. split; [done|]. cbn [concat length]. lia.
      * apply Z.ltb_ge in Hn. destruct (IH _ Hn) as (a & b & -> & H1 & H2 & H3). exists (p :: a), b. cbn [concat]. rewrite H1, app_length.
        split_and!; [done|done|lia|]. destruct H3 as [->|(q & b' & -> & H3)]; [by left|]. right. exists q, b'. split; [done|]. lia.
Qed.

Section Frame.
Variable has_token : gostr -> gostr -> bool.
Variable status_text : Z -> option gostr.
Variable date : gostr.
Variable sniff : gostr -> gostr.
Variables keep unread : bool.
Variable size : nat.
Variable r : request.
Hypothesis date_line : one_line date.
Hypothesis text_line : forall code t, status_text code = Some t -> bare t.
Hypothesis sniff_line : forall d, one_line (sniff d).
Local Notation writeHeader := (writeHeader has_token date sniff keep unread r).
Local Notation answer := (answer has_token status_text date sniff keep unread size r).
Local Notation is_head := (is_head r).

Lemma reads_back code fs t s m rest : head_text code fs t -> 200 <= code -> reads false (t ++ s) m rest -> exists b, m = (code, fs, b) /\ body_text false code fs s b rest.
Proof.
  intros Hh Hc H. inversion H as [code' fs' t' s' b' r' Hh' Hc' Hb' Heq|code' fs' t' s' m2 r' Hh' Hc' Hn' Hr' Heq]; subst.
  - destruct (head_one _ _ _ _ _ _ _ _ Hh' Hh Heq) as (-> & -> & ->). by exists b'.
  - destruct (head_one _ _ _ _ _ _ _ _ Hh' Hh Heq) as (-> & _). lia.
Qed.
Theorem measured w ps code h z n out closed :
  response_head w = (code, h) -> 200 <= code <= 999 -> plain_header h -> is_head = false -> ~ bodiless false code ->
  h_values h (L "Content-Length") = [z] -> udecimal z n -> n < 2 ^ 63 ->
  answer w ps = (out, closed) ->
  (n <> Z.of_nat (length (concat ps)) -> closed = true) /\
  (forall m rest, reads false out m rest -> rest = [] /\ exists fs, m = (code, fs, take (Z.to_nat n) (concat ps)) /\ n <= Z.of_nat (length (concat ps))) /\
  ((exists m rest, reads false out m rest) <-> exists a b, ps = a ++ b /\ Z.of_nat (length (concat a)) = n).
Proof.
  intros Hrh Hcode Hp Hhd Hnb Hcl Hz Hn Hans.
  destruct (declared_set _ _ _ Hcl Hz Hn) as [Hd Hg].
  assert (0 <= n) as H0. { by destruct (udecimal_parse _ _ Hz Hn). }
  assert (body_allowed code = true) as Hal.
  { apply not_false_iff_true. intros E. apply Hnb. rewrite <- Hhd. apply (bodiless_iff has_token date). auto. }
  unfold NetFrame.answer in Hans. rewrite Hrh, Hd, Hal, Hhd in Hans.
  destruct (buffered_ok size (admitted (Some n) 0 ps)) as [_ Hcat]. destruct (buffered size _) as [late early]. cbn [fst snd] in Hcat.
  set (data := early ++ _) in *.
  assert (concat data = concat (admitted (Some n) 0 ps)) as Hdata.
  { rewrite <- Hcat. unfold data. rewrite concat_app. destruct (seqb late []) eqn:E; [apply seqb_true in E; subst late; done|]. cbn [concat]. by rewrite app_nil_r. }
  destruct (admitted_prefix n ps 0 H0) as (a & b & Hps & Ha & Hle & Hb).
  set (fr := match early with [] => _ | _ => _ end) in *.
  assert (exists dn p, fr = writeHeader code h (Some n) dn p) as (dn & p & Hfr) by (unfold fr; destruct early; eauto).
  clearbody fr. subst fr.
  assert (auto r code h dn p = false) as Hau.
  { unfold auto. rewrite Hg. assert (seqb z [] = false) as ->; [|by rewrite andb_false_r]. apply seqb_false. by destruct Hz. }
  assert (len r code h (Some n) dn p = Some n) as Hlen by (unfold len; by rewrite Hau).
  assert (chunking r code h (Some n) dn p = false) as Hck by (unfold chunking; rewrite Hlen; by rewrite andb_false_r).
  destruct (shape has_token date sniff keep unread r code h (Some n) dn p Hp) as (dels & conn & close & Hshape & _).
  assert (fr_length (writeHeader code h (Some n) dn p) = Some n /\ fr_chunking (writeHeader code h (Some n) dn p) = false) as (F1 & F2)
    by (rewrite Hshape; cbn [fr_length fr_chunking]; by rewrite Hlen, Hck).
  rewrite F1, F2, Hdata, Ha in Hans. injection Hans as <- <-.
  pose proof (fields_ok has_token date sniff keep unread r date_line sniff_line code h (Some n) dn p Hp) as Hok.
  set (fs := fr_fields (writeHeader code h (Some n) dn p)) in *.
  assert (head_text code fs (head_bytes status_text r code (writeHeader code h (Some n) dn p))) as Hht by (apply (head_ok status_text r text_line); [lia|done]).
  assert (field_values (L "Transfer-Encoding") fs = []) as Hte.
  { unfold fs. rewrite (values_te has_token date sniff keep unread r) by done. by rewrite Hck. }
  assert (field_values (L "Content-Length") fs = [z]) as Hfl.
  { unfold fs. rewrite (values_length has_token date sniff keep unread r) by done.
    rewrite Hcl, Hau, app_nil_r. cbn [map]. f_equal. apply clean_id, digits_line. by destruct Hz as (_ & ? & _). }
  assert (forall m rest, reads false (head_bytes status_text r code (writeHeader code h (Some n) dn p) ++ concat a) m rest ->
    m = (code, fs, concat a) /\ rest = [] /\ Z.of_nat (length (concat a)) = n) as Hback.
  { intros m rest H. destruct (reads_back _ _ _ _ _ _ Hht ltac:(lia) H) as (b0 & -> & Hbt).
    assert (exists r0, concat a = b0 ++ r0 /\ rest = r0 /\ Z.of_nat (length b0) = n) as (r0 & E1 & -> & E2).
    { inversion Hbt as [r0 Hb0|b1 t0 r0 Hb0 E|n' b1 r0 Hb0 E0 E Hu Heq|b1 Hb0 E0 E]; subst; try done; try congruence.
      rewrite Hfl in E. injection E as <-. exists rest. split_and!; [done|done|]. by eapply udecimal_fun. }
    rewrite E1, app_length in Hle. destruct r0 as [|c r0]; [|cbn [length] in Hle; lia]. rewrite app_nil_r in E1. subst b0. split_and!; done. }
  split; [|split; [|split]].
  - intros Hne. cbn [negb andb]. assert ((n =? Z.of_nat (length (concat ps))) = false) as -> by (by apply Z.eqb_neq). by rewrite orb_true_r.
  - intros m rest H. destruct (Hback _ _ H) as (-> & -> & E). split; [done|]. exists fs. subst ps. rewrite concat_app, app_length. split; [|lia].
    rewrite <- E, Nat2Z.id, take_app. done.
  - intros (m & rest & H). destruct (Hback _ _ H) as (_ & _ & E). by exists a, b.
  - intros (a' & b' & E1 & E2). assert (concat a = concat a') as Ea.
    { assert (a ++ b = a' ++ b') as E by (rewrite <- Hps; exact E1). apply (f_equal (@concat ascii)) in E. rewrite !concat_app in E.
      destruct Hb as [->|(q & b2 & -> & Hq)].
      - cbn [concat] in E. rewrite app_nil_r in E. assert (length (concat a) = length (concat a') + length (concat b'))%nat as El by (rewrite E; apply app_length).
        destruct (concat b') as [|c s]; [by rewrite app_nil_r in E|]. cbn [length] in El. lia.
      - assert (Z.of_nat (length (concat a)) = n \/ Z.of_nat (length (concat a)) < n) as [Ex|Ex] by lia.
        + apply app_inj_1 in E as [E _]; [done|]. lia.
        + exfalso. rewrite Hps in E1. clear -E1 E2 Ex Hq. revert a' E1 E2.
          enough (forall k a', a ++ q :: b2 = a' ++ b' -> k + Z.of_nat (length (concat a')) = n -> k + Z.of_nat (length (concat a)) < n ->
            n < k + Z.of_nat (length (concat a)) + Z.of_nat (length q) -> False) as Hx.
          { intros a' E1 E2. apply (Hx 0 a'); [done|lia|lia|lia]. }
          clear Ex Hq. induction a as [|x a IH]; intros k a' E1 E2 Ex Hq.
          * destruct a' as [|y a']; cbn [concat length] in *; [lia|]. injection E1 as <- E1. rewrite app_length in E2. lia.
          * destruct a' as [|y a']; cbn [concat length] in *; [lia|]. injection E1 as <- E1. rewrite app_length in *. apply (IH (k + Z.of_nat (length x)) a' E1); lia. }
    exists (code, fs, concat a), []. rewrite <- (app_nil_r (concat a)) at 1. constructor; [done|lia|]. apply (body_length _ _ _ z); try done.
    rewrite Ea, E2. done.
Qed.
End Frame.

Section Served.
Context {A V : Type}.
Variable sniff : gostr -> gostr.
Variable parse_form : bool -> request -> gostr * bool -> gmap gostr (list gostr) * bool * gostr.
Variable re_find : gostr -> gostr -> option (list gostr).
Variable code : handler A -> prog V.
Variable has_token : gostr -> gostr -> bool.
Variable status_text : Z -> option gostr.
Variable keep : bool.
Variable size : nat.
Hypothesis text_line : forall n t, status_text n = Some t -> bare t.
Hypothesis sniff_line : forall d, one_line (sniff d).
Theorem measured_served ex n h z len : (forall h, only proper (code h)) -> served re_find sniff parse_form code ex ->
  asks_head ex = false -> response_head (ex_response ex) = (n, h) -> ~ bodiless false n ->
  h_values h (L "Content-Length") = [z] -> udecimal z len -> len < 2 ^ 63 ->
  let written := concat (ex_pieces ex) in
  let bytes := fst (ex_answer has_token status_text sniff keep size ex) in
  rw_body (ex_response ex) = written /\
  (len <> Z.of_nat (length written) -> forall es, answered has_token status_text sniff keep size (ex :: es) = [ex] /\ connection has_token status_text sniff keep size (ex :: es) = bytes) /\
  (forall m rest, reads false bytes m rest -> rest = [] /\ exists fs, m = (n, fs, take (Z.to_nat len) written) /\ len <= Z.of_nat (length written)) /\
  ((exists m rest, reads false bytes m rest) <-> exists a b, ex_pieces ex = a ++ b /\ Z.of_nat (length (concat a)) = len).
Proof using text_line sniff_line.
  intros Hp (e & id & x & r & body & px & c' & d & u & Hs & Hd & ->) Hh Hrh Hnb Hcl Hz Hlen written bytes.
  unfold asks_head in Hh. unfold ex_answer in bytes. cbn [ex_request ex_response ex_pieces ex_date ex_unread] in *.
  assert (fits [L "Transfer-Encoding"; L "Trailer"] c') as [F1 F2] by (eapply fits_serve; [apply proper_canon|apply proper_type|done|done]).
  assert (200 <= n <= 999 /\ tidy [L "Transfer-Encoding"; L "Trailer"] h /\ rw_body (cn_rw c') = written) as (N & T & B).
  { unfold response_head in Hrh. destruct (rw_sent (cn_rw c')) as [[n1 h1]|] eqn:E; injection Hrh as <- <-.
    - destruct F2 as (? & ? & B1 & B2). split_and!; [lia|lia|done|]. apply B1. apply not_false_iff_true. intros Hb. apply Hnb.
      pose proof (bodiless_iff (fun _ _ => false) [] (mkReq [] 1 1 [] [] ∅ [] false) n1) as Hi. change (is_head _) with false in Hi. apply Hi. by right.
    - destruct F2 as [B1 B2]. split_and!; [lia|lia|done|]. unfold written. rewrite B1, B2. done. }
  assert (is_head r = false) as His by (unfold is_head; apply seqb_false; by apply bool_decide_eq_false in Hh).
  unfold bytes.
  destruct (answer has_token status_text d sniff keep u size r (cn_rw c') (pieces (cn_log c'))) as [out closed] eqn:Ea. cbn [fst].
  destruct (measured has_token status_text d sniff keep u size r Hd text_line sniff_line (cn_rw c') (pieces (cn_log c')) n h z len out closed Hrh N
    (tidy_plain [L "Transfer-Encoding"; L "Trailer"] h ltac:(done) T) His Hnb Hcl Hz Hlen Ea) as (M1 & M2 & M3).
  split_and!; [done| |done|exact M3].
  intros Hne es. specialize (M1 Hne). subst closed. cbn [answered connection]. unfold ex_answer. cbn [ex_request ex_response ex_pieces ex_date ex_unread].
  rewrite Ea. cbn [fst snd]. by rewrite app_nil_r.
Qed.
End Served.
