(** Replies on a connection are read as they were written: whole replies. *)
From Coq Require Import ZArith NArith.
From Verif Require Import Base GoStr GoStrFacts UtilSpec Strconv StrconvFacts UtilFacts Header RequestSpec RequestFacts RoutingFacts Router Ctx Engine NetServe NetRangeFacts NetFrame FrameSpec FrameClaim FrameRead FrameFacts FrameTop.
Local Open Scope Z_scope.

Section Frame.
Variable has_token : gostr -> gostr -> bool.
Variable status_text : Z -> option gostr.
Variable date : gostr.
Variable sniff : gostr -> gostr.
Variables keep unread : bool.
Variable size : nat.
Variable r : request.
Hypothesis date_line : one_line date.
Hypothesis text_line : forall code t, status_text code = Some t -> bare t.
Hypothesis sniff_line : forall d, one_line (sniff d).
Hypothesis sniff_window : forall a b, (size <= length a)%nat -> sniff (a ++ b) = sniff a.
Local Notation writeHeader := (writeHeader has_token date sniff keep unread r).
Local Notation answer := (answer has_token status_text date sniff keep unread size r).
Local Notation torn := (torn has_token status_text date sniff keep unread size r).
Local Notation head_bytes := (head_bytes status_text r).
Local Notation is_head := (is_head r).

Lemma field_values_same k k' fs : map lower_byte k = map lower_byte k' -> field_values k fs = field_values k' fs.
Proof. intros E. induction fs as [|f fs IH]; [done|]. cbn [field_values]. by rewrite E, IH. Qed.
Lemma values_same h k k' : canon k = canon k' -> h_values h k = h_values h k'.
Proof. intros E. unfold h_values. by rewrite E. Qed.

(** what finish adds *)
Lemma finish_head w code h body : finish sniff w = (code, h, body) -> exists h0, response_head w = (code, h0) /\ body = rw_body w /\
  ((h = h_set h0 (L "Content-Type") (sniff body) /\ body <> [] /\ h0 !! L "Content-Type" = None /\ h_get h0 (L "Content-Encoding") = []) \/
   (h = h0 /\ (body = [] \/ h0 !! L "Content-Type" <> None \/ h_get h0 (L "Content-Encoding") <> [] \/ h_get h0 (L "Transfer-Encoding") <> []))).
Proof.
  unfold finish, response_head. destruct (match rw_sent w with Some s => s | None => (200, rw_hdr w) end) as [c h0]. intros [= -> <- <-].
  exists h0. split; [done|]. split; [done|].
  destruct (negb (length (rw_body w) =? 0)%nat) eqn:E1; cbn [andb].
  2:{ right. split; [done|]. left. apply negb_false_iff, Nat.eqb_eq in E1. by destruct (rw_body w). }
  case_bool_decide as E2; cbn [andb]; [|right; auto].
  destruct (seqb (h_get h0 (L "Content-Encoding")) []) eqn:E3; cbn [andb]; [|apply seqb_false in E3; right; auto].
  destruct (seqb (h_get h0 (L "Transfer-Encoding")) []) eqn:E4; [|apply seqb_false in E4; right; auto 6].
  apply seqb_true in E3. left. split_and!; try done. intros E. rewrite E in E1. done.
Qed.
Lemma other_name k k' : bool_decide (canon k <> canon k') = true -> seqb (canon k) (canon k') = false.
Proof. intros H%bool_decide_eq_true. by apply seqb_false. Qed.
Lemma plain_before h0 v : h0 !! L "Content-Type" = None -> plain_header (h_set h0 (L "Content-Type") v) -> plain_header h0.
Proof.
  intros Hn (H1 & H2 & H3). rewrite values_set, (other_name (L "Content-Type") (L "Transfer-Encoding") ltac:(vm_compute; reflexivity)) in H2.
  rewrite values_set, (other_name (L "Content-Type") (L "Trailer") ltac:(vm_compute; reflexivity)) in H3. split_and!; [|done|done].
  intros k [x Hk]. apply H1. unfold h_set. destruct (decide (canon (L "Content-Type") = k)) as [<-|Hne].
  - rewrite lookup_insert. by eexists.
  - rewrite lookup_insert_ne by done. by eexists.
Qed.

Theorem delivered w ps code h body out closed next :
  finish sniff w = (code, h, body) -> 200 <= code <= 999 -> plain_header h -> declares is_head code h (length body) ->
  (~ bodiless false code -> concat ps = body) -> (bodiless false code -> body = []) ->
  answer w ps = (out, closed) -> (closed = true -> next = []) ->
  (exists fs, reads is_head (out ++ next) (code, fs, if is_head then [] else body) next /\
    (forall k, is_token k -> canon k ∉ hop_names -> (code = 304 -> canon k <> L "Content-Type") -> field_values k fs = map clean (h_values h k))) /\
  (closed = true -> at_least_11 r = false \/ wants_close has_token r = true \/ h_get h (L "Connection") = L "close" \/ keep = false \/ unread = true).
Proof.
  intros Hfin Hcode Hplain Hdecl Hps Hnone Hans Hnext.
  destruct (finish_head _ _ _ _ Hfin) as (h0 & Hrh & Hbody & Hguess).
  assert (plain_header h0) as Hp0 by (destruct Hguess as [(-> & _ & ? & _)|[-> _]]; [by eapply plain_before|done]).
  assert (h_values h (L "Content-Length") = h_values h0 (L "Content-Length")) as HCL.
  { destruct Hguess as [(-> & _)|[-> _]]; [|done]. by rewrite values_set, (other_name (L "Content-Type") (L "Content-Length") ltac:(vm_compute; reflexivity)). }
  assert (h_get h (L "Connection") = h_get h0 (L "Connection")) as HCn.
  { destruct Hguess as [(-> & _)|[-> _]]; [|done]. unfold h_get. by rewrite values_set, (other_name (L "Content-Type") (L "Connection") ltac:(vm_compute; reflexivity)). }
  unfold declares in Hdecl. rewrite HCL in Hdecl.
  assert (body_allowed code = false -> body = []) as Hba.
  { intros E. apply Hnone. unfold bodiless. right. unfold body_allowed in E. apply negb_false_iff in E.
    apply orb_true_iff in E as [E|E]; [apply orb_true_iff in E as [E|E]|].
    - apply andb_true_iff in E as [E1%Z.leb_le E2%Z.leb_le]. lia.
    - apply Z.eqb_eq in E. auto.
    - apply Z.eqb_eq in E. auto. }
  assert (body_allowed code = true -> concat ps = body) as Hps'.
  { intros E. apply Hps. intros [Hb|Hb]; [done|]. unfold body_allowed in E. apply negb_true_iff in E. apply orb_false_iff in E as [E E3].
    apply orb_false_iff in E as [E1 E2]. apply Z.eqb_neq in E2, E3. apply andb_false_iff in E1 as [E1|E1]; apply Z.leb_gt in E1; lia. }
  (* the declared length *)
  set (limit := declared h0) in *.
  assert ((h_values h0 (L "Content-Length") = [] /\ limit = None) \/
          exists z n, h_values h0 (L "Content-Length") = [z] /\ h_get h0 (L "Content-Length") = z /\ limit = Some n /\ udecimal z n /\ Z.of_nat (length body) <= n /\ (n = Z.of_nat (length body) \/ bodiless is_head code)) as Hlim.
  { destruct Hdecl as [E|(z & n & E & Hz & Hn & Hx)]; [left; split; [done|by apply declared_unset]|].
    right. exists z, n. destruct (declared_set _ _ _ E Hz) as [? ?]; [lia|]. split_and!; (done || lia). }
  unfold NetFrame.answer in Hans. rewrite Hrh in Hans. fold limit in Hans.
  set (kept := if body_allowed code then admitted limit 0 ps else []) in *.
  assert (concat kept = body) as Hkept.
  { unfold kept. destruct (body_allowed code); [|symmetry; by apply Hba]. rewrite <- (Hps' eq_refl). apply admitted_all.
    destruct Hlim as [(_ & ->)|(z & n & _ & _ & -> & _ & Hn & _)]; [done|]. rewrite (Hps' eq_refl). lia. }
  destruct (buffered_ok size kept) as [Hbuf Hcat]. destruct (buffered size kept) as [late early]. cbn [fst snd] in Hcat.
  destruct Hbuf as (_ & Hne & Hfirst). cbn [fst snd] in Hne, Hfirst. rewrite Hkept in Hcat.
  set (data := early ++ (if seqb late [] then [] else [late])) in *.
  assert (concat data = body) as Hdata.
  { unfold data. rewrite concat_app. destruct (seqb late []) eqn:E; [apply seqb_true in E; subst late; done|]. cbn [concat]. by rewrite app_nil_r. }
  assert (Forall (fun p => p <> []) data) as Hdne.
  { unfold data. apply Forall_app. split; [done|]. destruct (seqb late []) eqn:E; [constructor|]. apply seqb_false in E. by constructor. }
  set (fr := match early with [] => _ | _ => _ end) in *.
  assert (exists dn p, fr = writeHeader code h0 limit dn p /\ sniff p = sniff body /\ (p = [] <-> body = []) /\ (dn = true -> p = body)) as (dn & p & Hfr & Hsn & Hpe & Hdn).
  { unfold fr. destruct early as [|e early].
    - cbn [concat app] in Hcat. subst late. exists true, body. split_and!; done.
    - exists false, e. assert (e <> []) as He by (by inversion Hne). cbn [concat] in Hcat. rewrite <- app_assoc in Hcat.
      split_and!; [done| | |done].
      + rewrite <- Hcat. by rewrite sniff_window.
      + rewrite <- Hcat. by destruct e. }
  clearbody fr. subst fr.
  destruct (shape has_token date sniff keep unread r code h0 limit dn p Hp0) as (dels & conn & close & Hshape & _ & _ & _ & _ & H10 & Hwhy).
  pose proof (fields_ok has_token date sniff keep unread r date_line sniff_line code h0 limit dn p Hp0) as Hok.
  pose proof (head_ok status_text r text_line code (writeHeader code h0 limit dn p) ltac:(lia) Hok) as Hhead.
  pose proof (values_te has_token date sniff keep unread r code h0 limit dn p Hp0) as Hte.
  pose proof (values_length has_token date sniff keep unread r code h0 limit dn p Hp0) as Hlen.
  pose proof (values_type has_token date sniff keep unread r code h0 limit dn p Hp0) as Htype.
  pose proof (fun k => values_other has_token date sniff keep unread r k code h0 limit dn p Hp0) as Hother.
  set (fr := writeHeader code h0 limit dn p) in *.
  assert (fr_length fr = len r code h0 limit dn p /\ fr_chunking fr = chunking r code h0 limit dn p /\ fr_close fr = close) as (F1 & F2 & F3)
    by (rewrite Hshape; done). clear Hshape. clearbody fr.
  rewrite F1, F2, F3 in Hans. injection Hans as <- Hclosed.
  assert (is_head = false -> body_allowed code = true -> forall n, len r code h0 limit dn p = Some n -> n = Z.of_nat (length body)) as Hsame.
  { intros Hhd Hal n Hn. unfold len in Hn. destruct (auto r code h0 dn p) eqn:Ha.
    - injection Hn as <-. unfold auto in Ha. destruct dn; [|done]. by rewrite Hdn.
    - rewrite Hn in Hlim. destruct Hlim as [[_ E]|(z & m & _ & _ & [= <-] & _ & _ & [?|Hb])]; [done|done|].
      apply (bodiless_iff has_token date) in Hb as [E|E]; congruence. }
  assert (closed = close) as ->.
  { rewrite <- Hclosed. destruct is_head eqn:Hhd; cbn [negb andb]; [by rewrite orb_false_r|].
    destruct (body_allowed code) eqn:Hal; cbn [andb]; [|by rewrite orb_false_r].
    destruct (len r code h0 limit dn p) as [n|] eqn:Hn; [|by rewrite orb_false_r].
    rewrite (Hsame eq_refl eq_refl n eq_refl), (Hps' eq_refl), Z.eqb_refl. by rewrite orb_false_r. }
  split; [|rewrite HCn; exact Hwhy].
  exists (fr_fields fr). split.
  - rewrite <- app_assoc. apply reads_reply; [done|lia|].
    assert (bodiless is_head code <-> is_head = true \/ body_allowed code = false) as Hiff by apply (bodiless_iff has_token date).
    destruct is_head eqn:Hhd.
    { cbn [app]. constructor. apply Hiff. auto. }
    destruct (body_allowed code) eqn:Hal.
    2:{ rewrite (Hba eq_refl) in *. unfold chunking. rewrite Hal, Hhd. cbn [negb andb]. rewrite Hdata. constructor. apply Hiff. auto. }
    assert (~ bodiless false code) as Hnb by (rewrite Hiff; intros [|]; done).
    destruct (chunking r code h0 limit dn p) eqn:Hck.
    { apply body_chunked; [done|done|]. rewrite <- Hdata. by apply chunks_text. }
    specialize (Hlen eq_refl eq_refl). rewrite Hdata.
    unfold chunking in Hck. rewrite Hhd, Hal in Hck. cbn [negb andb] in Hck.
    destruct (len r code h0 limit dn p) as [n|] eqn:Hn.
    + pose proof (Hsame eq_refl eq_refl n eq_refl) as ->.
      assert (exists z, field_values (L "Content-Length") (fr_fields fr) = [z] /\ udecimal z (Z.of_nat (length body))) as (z & Hz & Hu); [|by apply (body_length _ _ _ z)].
      rewrite Hlen. unfold len in Hn. destruct (auto r code h0 dn p) eqn:Ha.
      * destruct Hlim as [[-> _]|(z & m & _ & Hg & _ & (Hz & _) & _)].
        -- injection Hn as Hn. rewrite Hn. eexists. split; [done|]. apply itoa_udecimal. lia.
        -- unfold auto in Ha. rewrite Hg in Ha. assert (seqb z [] = false) as E by (by apply seqb_false). rewrite E, andb_false_r in Ha. done.
      * destruct Hlim as [[_ E]|(z & m & -> & _ & E & Hz & _)]; [congruence|]. rewrite E in Hn. injection Hn as ->.
        exists z. split; [|done]. cbn [map app]. f_equal. apply clean_id, digits_line. by destruct Hz as (_ & ? & _).
    + cbn [andb] in Hck. rewrite (Hnext (H10 eq_refl eq_refl eq_refl Hck)), app_nil_r.
      apply body_rest; [done|done|]. rewrite Hlen. unfold len in Hn. destruct (auto r code h0 dn p) eqn:Ha; [done|].
      destruct Hlim as [[-> _]|(z & m & _ & _ & E & _)]; [done|congruence].
  - intros k Hk Hhop H304. destruct (decide (canon k = L "Content-Type")) as [Ect|Ect].
    + assert (canon (L "Content-Type") = L "Content-Type") as Hcc by (vm_compute; reflexivity).
      rewrite (field_values_same k (L "Content-Type")).
      2:{ apply canon_same; [done|by apply lit_name|congruence]. }
      rewrite Htype, (values_same h k (L "Content-Type")) by congruence.
      destruct (Z.eqb_spec code 304) as [E|E]; [by apply H304 in E|].
      unfold ctype. destruct Hguess as [(-> & Hb & Hno & Hce)|[-> Hno]].
      * destruct (body_allowed code) eqn:Hal; [|by destruct Hb; apply Hba]. rewrite Hce, bool_decide_true by done.
        assert (seqb p [] = false) as -> by (apply seqb_false; intros ->; by apply Hb, Hpe). cbn [seqb negb andb map].
        assert (h_values h0 (L "Content-Type") = []) as -> by (unfold h_values; rewrite Hcc, Hno; done).
        rewrite values_set, (seqb_refl (canon (L "Content-Type"))). change ([sniff p] = [clean (sniff body)]). by rewrite clean_id, Hsn.
      * assert (body_allowed code && seqb (h_get h0 (L "Content-Encoding")) [] && bool_decide (h0 !! L "Content-Type" = None) && negb (seqb p []) = false) as ->;
          [|by rewrite app_nil_r].
        destruct Hno as [Hb|[Hb|[Hb|Hb]]].
        -- apply Hpe in Hb as ->. by rewrite andb_false_r.
        -- rewrite bool_decide_false by done. by rewrite andb_false_r.
        -- apply seqb_false in Hb as ->. by rewrite andb_false_r.
        -- exfalso. apply Hb. destruct Hp0 as (_ & Ht & _). unfold h_get. by rewrite Ht.
    + rewrite Hother; [|done|].
      2:{ unfold server_names. unfold hop_names in Hhop. rewrite !not_elem_of_cons in Hhop. rewrite !not_elem_of_cons. clear -Hhop Ect. tauto. }
      destruct Hguess as [(-> & _)|[-> _]]; [|done]. rewrite values_set.
      assert (seqb (canon (L "Content-Type")) (canon k) = false) as ->; [|done].
      apply seqb_false. intros E. apply Ect. rewrite <- E. vm_compute. reflexivity.
Qed.
End Frame.
