(** Replies to HEAD and to GET, as clients read them from a connection. *)
From Coq Require Import ZArith NArith.
From Verif Require Import Base GoStr GoStrFacts UtilSpec Strconv StrconvFacts UtilFacts Header RequestSpec RequestFacts RoutingFacts Router Ctx Engine NetServe NetRangeFacts NetFrame
  FrameSpec FrameClaim FrameRead FrameFacts FrameTop FrameSend FrameCut FrameConn.
Local Open Scope Z_scope.

Section Frame.
Variable has_token : gostr -> gostr -> bool.
Variable status_text : Z -> option gostr.
Variable date : gostr.
Variable sniff : gostr -> gostr.
Variables keep unread : bool.
Variable size : nat.
Variable r : request.
Hypothesis date_line : one_line date.
Hypothesis text_line : forall code t, status_text code = Some t -> bare t.
Hypothesis sniff_line : forall d, one_line (sniff d).
Local Notation writeHeader := (writeHeader has_token date sniff keep unread r).
Local Notation answer := (answer has_token status_text date sniff keep unread size r).
Local Notation is_head := (is_head r).

Lemma no_length code h limit dn p : plain_header h -> body_allowed code = false ->
  field_values (L "Content-Length") (fr_fields (writeHeader code h limit dn p)) = [].
Proof using.
  intros Hp Hb. destruct (shape has_token date sniff keep unread r code h limit dn p Hp) as (dels & conn & close & -> & _ & _ & Hcl & Hconn & _ & _). cbn [fr_fields].
  rewrite !field_values_app, header_values by (first [by apply lit_name|by destruct Hp]).
  rewrite deleted by (by apply Hcl).
  replace (field_values _ (if bool_decide _ then _ else _)) with (@nil gostr) by (by case_bool_decide).
  replace (field_values _ (ctype _ _ _ _)) with (@nil gostr) by (unfold ctype; by destruct (_ && _)).
  replace (field_values _ conn) with (@nil gostr) by (by destruct Hconn as [->|[->| ->]]).
  replace (auto r code h dn p) with false by (unfold auto; rewrite Hb; by rewrite andb_false_r).
  by destruct (chunking _ _ _ _ _ _).
Qed.
Lemma head_back code fs t m rest : head_text code fs t -> 200 <= code -> reads true t m rest -> m = (code, fs, []) /\ rest = [].
Proof using.
  intros Hh Hc H. rewrite <- (app_nil_r t) in H.
  inversion H as [code' fs' t' s' b' r' Hh' Hc' Hb' Heq|code' fs' t' s' m2 r' Hh' Hc' Hn' Hr' Heq]; subst.
  - destruct (head_one _ _ _ _ _ _ _ _ Hh' Hh Heq) as (-> & -> & ->). inversion Hb' as [r0 Hb0|? ? ? Hb0|? ? ? Hb0|? Hb0]; subst; [done|..]; destruct Hb0; by left.
  - destruct (head_one _ _ _ _ _ _ _ _ Hh' Hh Heq) as (-> & _). lia.
Qed.
(** the Content-Length of a reply to HEAD *)
Theorem head_length w ps code h body m rest :
  is_head = true -> finish sniff w = (code, h, body) -> 200 <= code <= 999 -> plain_header h ->
  (~ bodiless false code -> concat ps = body) ->
  reads true (fst (answer w ps)) m rest ->
  exists fs, m = (code, fs, []) /\ rest = [] /\ field_values (L "Transfer-Encoding") fs = [] /\
    forall z, z ∈ field_values (L "Content-Length") fs -> body_allowed code = true /\
      (z ∈ map clean (h_values h (L "Content-Length")) \/ h_values h (L "Content-Length") = [] /\ body <> [] /\ z = itoa (Z.of_nat (length body)) \/
       h_get h (L "Content-Length") = [] /\ h_values h (L "Content-Length") <> []).
Proof using date_line text_line sniff_line.
  intros Hhd Hfin Hcode Hplain Hps Hread.
  destruct (finish_head sniff _ _ _ _ Hfin) as (h0 & Hrh & Hbody & Hguess).
  assert (plain_header h0) as Hp0 by (destruct Hguess as [(-> & _ & ? & _)|[-> _]]; [by eapply plain_before|done]).
  assert (h_values h (L "Content-Length") = h_values h0 (L "Content-Length")) as HCL.
  { destruct Hguess as [(-> & _)|[-> _]]; [|done]. by rewrite values_set, (other_name (L "Content-Type") (L "Content-Length") ltac:(vm_compute; reflexivity)). }
  unfold h_get. rewrite HCL. fold (h_get h0 (L "Content-Length")).
  unfold NetFrame.answer in Hread. rewrite Hrh, Hhd in Hread.
  set (limit := declared h0) in *. set (kept := if body_allowed code then admitted limit 0 ps else []) in *.
  destruct (buffered_ok size kept) as [_ Hcat]. destruct (buffered size kept) as [late early]. cbn [fst snd] in Hcat.
  set (fr := match early with [] => _ | _ => _ end) in *.
  assert (exists dn p, fr = writeHeader code h0 limit dn p /\ (dn = true -> p = concat kept)) as (dn & p & Hfr & Hdn).
  { unfold fr. destruct early as [|e early]; [exists true, late; split; [done|by intros _]|exists false, e; done]. }
  clearbody fr. subst fr. cbn [fst] in Hread. rewrite app_nil_r in Hread.
  pose proof (fields_ok has_token date sniff keep unread r date_line sniff_line code h0 limit dn p Hp0) as Hok.
  pose proof (head_ok status_text r text_line code (writeHeader code h0 limit dn p) ltac:(lia) Hok) as Hhead.
  destruct (head_back _ _ _ _ _ Hhead ltac:(lia) Hread) as [-> ->]. eexists. split; [done|]. split; [done|].
  assert (chunking r code h0 limit dn p = false) as Hck by (unfold chunking; by rewrite Hhd).
  split. { rewrite (values_te has_token date sniff keep unread r) by done. by rewrite Hck. }
  intros z Hz. destruct (body_allowed code) eqn:Hal.
  2:{ rewrite no_length in Hz by done. by apply elem_of_nil in Hz. }
  split; [done|]. rewrite (values_length has_token date sniff keep unread r) in Hz by done.
  apply elem_of_app in Hz as [Hz|Hz]; [by left|right].
  destruct (auto r code h0 dn p) eqn:Ha; [|by apply elem_of_nil in Hz]. apply elem_of_list_singleton in Hz as ->.
  unfold auto in Ha. apply andb_true_iff in Ha as [Ha Hpe]. apply andb_true_iff in Ha as [Ha Hg]. apply andb_true_iff in Ha as [-> _].
  apply seqb_true in Hg. destruct (h_values h0 (L "Content-Length")) eqn:Hv; [left|by right].
  assert (concat kept = body) as Hkept.
  { rewrite <- Hps.
    - unfold kept. apply admitted_all. unfold limit. by rewrite declared_unset.
    - intros Hb. pose proof (proj1 (bodiless_iff has_token date (mkReq [] 1 1 [] [] ∅ [] false) code) Hb) as [E|E]; [by vm_compute in E|congruence]. }
  rewrite Hdn, Hkept in * by done. split_and!; [done| |done].
  rewrite Hhd in Hpe. cbn in Hpe. intros ->. done.
Qed.
End Frame.

(** ** Two exchanges *)
Section Two.
Variable has_token : gostr -> gostr -> bool.
Variable status_text : Z -> option gostr.
Variable sniff : gostr -> gostr.
Variable keep : bool.
Variable size : nat.
Hypothesis text_line : forall code t, status_text code = Some t -> bare t.
Hypothesis sniff_line : forall d, one_line (sniff d).
Hypothesis sniff_window : forall a b, (size <= length a)%nat -> sniff (a ++ b) = sniff a.
Local Notation bytes ex := (fst (ex_answer has_token status_text sniff keep size ex)).
Lemma alone ex n h body : sound sniff ex -> finish sniff (ex_response ex) = (n, h, body) ->
  exists fs, reads (asks_head ex) (bytes ex) (n, fs, if asks_head ex then [] else body) [] /\
    forall k, is_token k -> canon k ∉ hop_names -> (n = 304 -> canon k <> L "Content-Type") -> field_values k fs = map clean (h_values h k).
Proof using text_line sniff_line sniff_window.
  intros [Hd Hs] Hf. destruct (Hs _ _ _ Hf) as (H1 & H2 & H3 & H4 & H5).
  destruct (ex_answer has_token status_text sniff keep size ex) as [out closed] eqn:Ha. unfold ex_answer in Ha. rewrite asks_head_is in *. 
  destruct (delivered has_token status_text (ex_date ex) sniff keep (ex_unread ex) size (ex_request ex) Hd text_line sniff_line sniff_window
    (ex_response ex) (ex_pieces ex) n h body out closed []) as [(fs & Hr & Hv) _]; try done.
  exists fs. rewrite app_nil_r in Hr. done.
Qed.
Theorem head_and_get ex ex' n h body body' :
  sound sniff ex -> sound sniff ex' -> asks_head ex = false -> asks_head ex' = true ->
  finish sniff (ex_response ex) = (n, h, body) -> finish sniff (ex_response ex') = (n, h, body') -> body' = [] \/ body' = body ->
  exists fs fs',
    (forall m rest, reads false (bytes ex) m rest <-> m = (n, fs, body) /\ rest = []) /\
    (forall m rest, reads true (bytes ex') m rest <-> m = (n, fs', []) /\ rest = []) /\
    (forall k, is_token k -> canon k ∉ hop_names -> (n = 304 -> canon k <> L "Content-Type") -> field_values k fs' = field_values k fs) /\
    field_values (L "Transfer-Encoding") fs' = [] /\
    forall z, z ∈ field_values (L "Content-Length") fs' -> udecimal z (Z.of_nat (length body)).
Proof using text_line sniff_line sniff_window.
  intros Hs Hs' Hh Hh' Hf Hf' Hb.
  destruct (alone _ _ _ _ Hs Hf) as (fs & Hr & Hv). destruct (alone _ _ _ _ Hs' Hf') as (fs' & Hr' & Hv').
  rewrite Hh in Hr. rewrite Hh' in Hr'. exists fs, fs'. split_and!.
  - intros m rest. split; [|by intros [-> ->]]. intros Hm. by destruct (reads_one _ _ _ _ Hm _ _ Hr) as [-> ->].
  - intros m rest. split; [|by intros [-> ->]]. intros Hm. by destruct (reads_one _ _ _ _ Hm _ _ Hr') as [-> ->].
  - intros k H1 H2 H3. rewrite Hv, Hv' by done. done.
  - destruct Hs' as [Hd' Hs']. destruct (Hs' _ _ _ Hf') as (H1 & H2 & H3 & _).
    pose proof Hh' as Hh2. rewrite asks_head_is in Hh2.
    destruct (head_length has_token status_text (ex_date ex') sniff keep (ex_unread ex') size (ex_request ex') Hd' text_line sniff_line _ _ _ _ _ _ _ Hh2 Hf' H1 H3 H2 Hr')
      as (fs2 & E & _ & Hte & _). by injection E as ->.
  - intros z Hz. destruct Hs' as [Hd' Hs']. destruct (Hs' _ _ _ Hf') as (H1 & H2 & H3 & _).
    pose proof Hh' as Hh2. rewrite asks_head_is in Hh2.
    destruct (head_length has_token status_text (ex_date ex') sniff keep (ex_unread ex') size (ex_request ex') Hd' text_line sniff_line _ _ _ _ _ _ _ Hh2 Hf' H1 H3 H2 Hr')
      as (fs2 & E & _ & _ & Hcl). injection E as ->. destruct (Hcl z Hz) as [Hal Hx].
    destruct Hs as [_ Hs]. destruct (Hs _ _ _ Hf) as (_ & _ & _ & Hdec & _). rewrite Hh in Hdec.
    assert (~ bodiless false n) as Hnb.
    { intros Hbd. pose proof (proj1 (bodiless_iff has_token [] (mkReq [] 1 1 [] [] ∅ [] false) n) Hbd) as [E|E]; [by vm_compute in E|congruence]. }
    destruct Hdec as [Hdec|(z0 & n0 & E0 & Hz0 & _ & [Hn0|Hn0])]; [| |done].
    + rewrite Hdec in Hx. destruct Hx as [Hx|[(_ & Hne & ->)|[_ Hx]]]; [by apply elem_of_nil in Hx| |done].
      destruct Hb as [->| ->]; [done|]. apply itoa_udecimal. lia.
    + rewrite E0 in Hx. destruct Hx as [Hx|[(? & _)|[Hg _]]]; [|done|].
      * cbn [map] in Hx. apply elem_of_list_singleton in Hx as ->. rewrite clean_id; [by subst n0|]. apply digits_line. by destruct Hz0 as (_ & ? & _).
      * unfold h_get in Hg. rewrite E0 in Hg. subst z0. by destruct Hz0.
Qed.
End Two.
