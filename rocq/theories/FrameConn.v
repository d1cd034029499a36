(** The replies of a connection. *)
From Coq Require Import ZArith NArith.
From Verif Require Import Base GoStr GoStrFacts UtilSpec Strconv StrconvFacts UtilFacts Header RequestSpec RequestFacts RoutingFacts Router Ctx Engine NetServe NetRangeFacts NetFrame FrameSpec FrameClaim FrameRead FrameFacts FrameTop FrameSend FrameCut.
Local Open Scope Z_scope.

(** ** Connections *)
Section Connection.
Variable has_token : gostr -> gostr -> bool.
Variable status_text : Z -> option gostr.
Variable sniff : gostr -> gostr.
Variable keep : bool.
Variable size : nat.
Hypothesis text_line : forall code t, status_text code = Some t -> bare t.
Hypothesis sniff_line : forall d, one_line (sniff d).
Hypothesis sniff_window : forall a b, (size <= length a)%nat -> sniff (a ++ b) = sniff a.
Local Notation answered := (answered has_token status_text sniff keep size).
Local Notation connection := (connection has_token status_text sniff keep size).
Local Notation ex_head e := (is_head (ex_request e)).

Local Notation sound := (sound sniff).
Local Notation is_reply := (is_reply sniff).
Local Notation stays_open := (stays_open has_token sniff).
Lemma asks_head_is e : asks_head e = is_head (ex_request e).
Proof.
  unfold asks_head, is_head. case_bool_decide as E; [rewrite E; done|]. symmetry. by apply seqb_false.
Qed.
Lemma clean_line_of v : line_of v (clean v).
Proof.
  unfold line_of. assert (map flat v = map newline_to_space v) as E.
  { apply map_ext. intros a. unfold flat, newline_to_space. case_bool_decide as H.
    - destruct H as [->| ->]; done.
    - destruct (Ascii.eqb_spec a "010"); [tauto|]. destruct (Ascii.eqb_spec a "013"); [tauto|]. done. }
  rewrite E. unfold clean at 1. set (w := map newline_to_space v). destruct (trim_parts w) as (o & o' & Ho & H1 & H2).
  exists o, o'. split_and!; [done| | |apply clean_line].
  all: rewrite Forall_forall in *; intros a Ha.
  - apply (spaces_blank v). fold w. rewrite Ho. set_solver. by apply H1.
  - apply (spaces_blank v). fold w. rewrite Ho. set_solver. by apply H2.
Qed.
Lemma line_of_id v l : one_line v -> line_of v l -> l = v.
Proof.
  intros Hv (o & o' & E & Ho & Ho' & Hl).
  assert (map flat v = v) as Hf.
  { destruct Hv as [[H1 H2] _]. clear -H1 H2. induction v as [|a v IH]; [done|]. cbn. f_equal; [|apply IH; set_solver].
    unfold flat. case_bool_decide as H; [|done]. exfalso. destruct H as [->| ->]; set_solver. }
  rewrite Hf in E. symmetry. apply (value_text [] v [] o l o'); try done. cbn. by rewrite app_nil_r.
Qed.
Lemma line_of_one v l l' : line_of v l -> line_of v l' -> l = l'.
Proof. intros (o & o2 & E & H1 & H2 & H3) (o' & o2' & E' & H1' & H2' & H3'). apply (value_text o l o2 o' l' o2'); try done. congruence. Qed.
Lemma finish_body w code h body : finish sniff w = (code, h, body) -> body = rw_body w.
Proof. intros H. destruct (finish_head sniff w code h body H) as (_ & _ & ? & _). done. Qed.
Theorem connection_read es : Forall sound es ->
  exists ms, reads_all (map asks_head (answered es)) (connection es) ms /\ Forall2 is_reply (answered es) ms.
Proof.
  induction 1 as [|e es (Hd & He) Hes IH]; [exists []; split; constructor|].
  destruct (finish sniff (ex_response e)) as [[code h] body] eqn:Hf. specialize (He _ _ _ eq_refl) as (H1 & Hp & H2 & H3 & H4). rewrite asks_head_is in H3.
  pose proof (finish_body _ _ _ _ Hf) as Hb.
  cbn [NetFrame.answered NetFrame.connection map]. destruct (ex_answer has_token status_text sniff keep size e) as [out closed] eqn:Ha. cbn [fst snd].
  unfold ex_answer in Ha.
  assert (exists ms, reads_all (map asks_head (if closed then [] else answered es)) (if closed then [] else connection es) ms /\
    Forall2 is_reply (if closed then [] else answered es) ms) as (ms & Hr & Hm).
  { destruct closed; [exists []; split; constructor|done]. }
  destruct (delivered has_token status_text (ex_date e) sniff keep (ex_unread e) size (ex_request e) Hd text_line sniff_line sniff_window
    (ex_response e) (ex_pieces e) code h body out closed (if closed then [] else connection es)) as [(fs & Hread & Hv) _]; try done.
  - by destruct closed.
  - exists ((code, fs, if ex_head e then [] else body) :: ms). split; [rewrite asks_head_is; by econstructor|]. constructor; [|done].
    intros c' h' b' E. rewrite Hf in E. injection E as <- <- <-. rewrite asks_head_is. eexists. split; [done|].
    intros k Hk1 Hk2 Hk3. rewrite Hv by done. apply Forall2_fmap_r, Forall_Forall2_diag, Forall_forall. intros v _. apply clean_line_of.
Qed.
Lemma reads_all_one heads : forall s ms ms', reads_all heads s ms -> reads_all heads s ms' -> ms = ms'.
Proof.
  induction heads as [|hd heads IH]; intros s ms ms' H H'; inversion H; inversion H'; subst; [done|].
  match goal with A : reads _ _ ?m ?r, B : reads _ _ ?m' ?r' |- _ => destruct (reads_one _ _ _ _ A _ _ B) as [-> ->] end.
  f_equal. by eapply IH.
Qed.
Theorem all_answered es : keep = true -> Forall sound es -> Forall stays_open es -> answered es = es.
Proof.
  intros Hk. induction 1 as [|e es (Hd & He) Hes IH]; [done|]. intros Ho. inversion Ho as [|? ? (O1 & O1' & O2 & O3 & O4) Ho2]; subst.
  destruct (finish sniff (ex_response e)) as [[code h] body] eqn:Hf. specialize (He _ _ _ eq_refl) as (H1 & Hp & H2 & H3 & H4). rewrite asks_head_is in H3.
  pose proof (finish_body _ _ _ _ Hf) as Hb. specialize (O4 _ _ _ eq_refl).
  cbn [NetFrame.answered]. destruct (ex_answer has_token status_text sniff true size e) as [out closed] eqn:Ha. cbn [snd].
  unfold ex_answer in Ha.
  destruct (delivered has_token status_text (ex_date e) sniff true (ex_unread e) size (ex_request e) Hd text_line sniff_line sniff_window
    (ex_response e) (ex_pieces e) code h body out closed []) as [_ Hw]; try done.
  destruct closed; [|f_equal; by apply IH]. destruct (Hw eq_refl) as [E|[?|[?|[?|?]]]]; [|unfold wants_close in *; congruence..].
  unfold at_least_11 in E. rewrite O1, O1' in E. done.
Qed.
End Connection.
