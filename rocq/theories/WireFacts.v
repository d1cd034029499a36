(** Facts about Wire.v *)
From Verif Require Import Base GoStr Header Ctx Content Wire WireSpec.
Local Open Scope Z_scope.

Section Facts.
Context {S : Type} (u : writer S) (sniff : gostr -> gostr).

Lemma used_app (s1 s2 s3 : S) cs1 cs2 : used u s1 cs1 s2 -> used u s2 cs2 s3 -> used u s1 (cs1 ++ cs2) s3.
Proof.
  intros H1 H2. induction H2 as [s|s cs s' h H IH|s cs s' code o s'' H IH E|s cs s' d n ok s'' H IH E].
  - by rewrite app_nil_r.
  - by apply used_put, IH.
  - eapply used_head; [by apply IH|done].
  - rewrite app_assoc. eapply used_write; [by apply IH|done].
Qed.

Lemma wWriteHeader_used code x o x' :
  wWriteHeader u code x = (o, x') -> used u (w_under x) [] (w_under x').
Proof.
  unfold wWriteHeader. destruct (w_written x).
  - intros E. injection E as _ <-. constructor.
  - destruct (u_head u code (w_under x)) as [o1 s] eqn:E. intros Ex. injection Ex as _ <-. simpl.
    eapply used_head; [constructor|done].
Qed.

Lemma wWriteHeader_state code x o x' :
  wWriteHeader u code x = (o, x') ->
  w_written x' = true /\ w_status x' = (if w_written x then w_status x else code).
Proof.
  unfold wWriteHeader. destruct (w_written x) eqn:W.
  - intros E. injection E as _ <-. done.
  - destruct (u_head u code (w_under x)) as [o1 s] eqn:E. intros Ex. injection Ex as _ <-. done.
Qed.

Lemma wSet_used k v x : used u (w_under x) [] (w_under (wSet u k v x)).
Proof. apply used_put. constructor. Qed.

(** Write: at most a header is sent first, then the data goes out in one call *)
Lemma wWrite_used d x n ok x' :
  wWrite u sniff d x = (Norm (n, ok), x') ->
  w_written x' = true /\ w_status x' = (if w_written x then w_status x else 200) /\
  exists s s', used u (w_under x) [] s /\ u_write u d s = (n, ok, s') /\ w_under x' = s'.
Proof.
  unfold wWrite. destruct (w_written x) eqn:W; simpl.
  - destruct (u_write u d (w_under x)) as [[n0 ok0] s0] eqn:E. intros Ex. injection Ex as <- <- <-. simpl.
    split; [done|]. split; [done|]. exists (w_under x), s0. split; [constructor|done].
  - destruct (negb (length d =? 0)%nat && seqb (h_get (u_hdr u (w_under x)) (L "Content-Type")) []).
    + destruct (wWriteHeader u 200 (wSet u (L "Content-Type") (sniff d) x)) as [[[]|v] x1] eqn:H; [|discriminate].
      destruct (u_write u d (w_under x1)) as [[n0 ok0] s0] eqn:E. intros Ex. injection Ex as <- <- <-. simpl.
      destruct (wWriteHeader_state _ _ _ _ H) as [A B]. rewrite A, B. simpl. rewrite W.
      split; [done|]. split; [done|]. exists (w_under x1), s0. split; [|done].
      apply (used_app _ _ _ [] [] (wSet_used (L "Content-Type") (sniff d) x) (wWriteHeader_used _ _ _ _ H)).
    + destruct (wWriteHeader u 200 x) as [[[]|v] x1] eqn:H; [|discriminate].
      destruct (u_write u d (w_under x1)) as [[n0 ok0] s0] eqn:E. intros Ex. injection Ex as <- <- <-. simpl.
      destruct (wWriteHeader_state _ _ _ _ H) as [A B]. rewrite A, B, W.
      split; [done|]. split; [done|]. exists (w_under x1), s0. split; [|done].
      by apply (wWriteHeader_used _ _ _ _ H).
Qed.

Lemma wWrite_call d x n ok x' :
  wWrite u sniff d x = (Norm (n, ok), x') -> used u (w_under x) [mkCall d n ok] (w_under x').
Proof.
  intros H. destruct (wWrite_used _ _ _ _ _ H) as (_ & _ & s & s' & U & E & ->).
  apply (used_app _ _ _ [] _ U). change ([mkCall d n ok]) with ([] ++ [mkCall d n ok]).
  eapply used_write; [constructor|done].
Qed.

Lemma wCopy_used ds eof : forall x r x',
  wCopy u sniff ds eof x = (Norm r, x') ->
  exists cs all, used u (w_under x) cs (w_under x') /\ written_out ds cs all /\ r = all && eof.
Proof.
  induction ds as [|d ds IH]; intros x r x'; cbn [wCopy].
  - intros E. injection E as <- <-. exists [], true. split; [constructor|]. split; [constructor|done].
  - destruct (length d =? 0)%nat eqn:N.
    + intros E. destruct (IH _ _ _ E) as (cs & all & U & W & ->). exists cs, all. split; [done|].
      apply Nat.eqb_eq in N. destruct d; [|discriminate]. split; [by constructor|done].
    + assert (D : d <> []) by (intros ->; discriminate).
      destruct (wWrite u sniff d x) as [[[n ok]|v] x1] eqn:Hw; [|discriminate].
      pose proof (wWrite_call _ _ _ _ _ Hw) as U1.
      destruct (ok && (n =? length d)%nat) eqn:G.
      * intros E. destruct (IH _ _ _ E) as (cs & all & U & W & ->).
        apply andb_true_iff in G as [-> G]. apply Nat.eqb_eq in G as ->.
        exists (mkCall d (length d) true :: cs), all. split; [|split; [by constructor|done]].
        apply (used_app _ _ _ [_] cs U1 U).
      * intros E. injection E as <- <-. exists [mkCall d n ok], false.
        split; [done|]. split; [by constructor|done].
Qed.

Definition taken (c : wcall) : gostr := take (wc_n c) (wc_data c).

Lemma used_recv recv s cs s' :
  honest u recv -> used u s cs s' -> recv s' = recv s ++ concat (map taken cs).
Proof.
  intros [Hw Hp Hh] H. induction H as [s|s cs s' h H IH|s cs s' code o s'' H IH E|s cs s' d n ok s'' H IH E].
  - by rewrite app_nil_r.
  - by rewrite Hp.
  - rewrite <- IH. pose proof (Hh code s') as Q. by rewrite E in Q.
  - destruct (Hw _ _ _ _ _ E) as (_ & _ & ->). rewrite IH, map_app, concat_app. simpl.
    by rewrite app_nil_r, app_assoc.
Qed.

Lemma used_calls recv s cs s' :
  honest u recv -> used u s cs s' ->
  forall c, In c cs -> (wc_n c <= length (wc_data c))%nat /\ ((wc_n c < length (wc_data c))%nat -> wc_ok c = false).
Proof.
  intros [Hw _ _] H. induction H as [s|s cs s' h H IH|s cs s' code o s'' H IH E|s cs s' d n ok s'' H IH E]; intros c Hc; auto.
  - destruct Hc.
  - apply in_app_or in Hc as [Hc|[<-|[]]]; [by apply IH|]. simpl.
    destruct (Hw _ _ _ _ _ E) as (A & B & _). done.
Qed.

Lemma written_out_prefix ds cs all :
  written_out ds cs all -> concat (map taken cs) `prefix_of` concat ds.
Proof.
  induction 1 as [|ds cs r H IH|d ds cs r D H IH|d ds n ok D F]; simpl.
  - done.
  - done.
  - unfold taken at 1. simpl. rewrite firstn_all. by apply prefix_app.
  - unfold taken. simpl. rewrite app_nil_r. exists (drop n d ++ concat ds).
    by rewrite app_assoc, take_drop.
Qed.
Lemma written_out_all ds cs :
  written_out ds cs true -> concat (map taken cs) = concat ds.
Proof.
  intros H. remember true as all eqn:E.
  induction H as [|ds cs r H IH|d ds cs r D H IH|d ds n ok D F]; simpl; subst; try done; auto.
  unfold taken at 1. simpl. rewrite firstn_all, IH; done.
Qed.
(** all went well exactly if no call failed, for honest writers *)
Lemma written_out_ok ds cs all :
  written_out ds cs all ->
  (forall c, In c cs -> (wc_n c <= length (wc_data c))%nat /\ ((wc_n c < length (wc_data c))%nat -> wc_ok c = false)) ->
  (all = true <-> forall c, In c cs -> wc_ok c = true).
Proof.
  induction 1 as [|ds cs r H IH|d ds cs r D H IH|d ds n ok D F]; intros Hc.
  - split; [intros _ c []|done].
  - by apply IH.
  - rewrite IH; [|by intros c Hi; apply Hc; right].
    split; [intros Hall c [<-|Hi]; [done|by apply Hall]|intros Hall c Hi; apply Hall; by right].
  - split; [discriminate|]. intros Hall. specialize (Hall _ (or_introl eq_refl)). simpl in Hall. subst ok.
    destruct (Hc _ (or_introl eq_refl)) as [A B]. simpl in A, B, F. apply Nat.eqb_neq in F.
    destruct (decide (n < length d)%nat) as [L1|L1]; [specialize (B L1); discriminate|lia].
Qed.

(** ** JSON, XML, Data *)
Lemma wJSON_used code enc x r x' :
  wJSON u sniff code enc x = (Norm r, x') ->
  w_written x' = true /\ w_status x' = (if w_written x then w_status x else code) /\
  match enc with
  | None => r = false /\ used u (w_under x) [] (w_under x')
  | Some d => exists n, used u (w_under x) [mkCall d n r] (w_under x')
  end.
Proof.
  unfold wJSON. destruct (wWriteHeader u code x) as [[[]|v] x1] eqn:H; [|discriminate].
  destruct (wWriteHeader_state _ _ _ _ H) as [A B]. pose proof (wWriteHeader_used _ _ _ _ H) as U.
  pose proof (wSet_used HeaderContentType MIMEApplicationJSONCharsetUTF8 x1) as U1.
  pose proof (used_app _ _ _ [] [] U U1) as U2. destruct enc as [d|].
  - destruct (wWrite u sniff d (wSet u HeaderContentType MIMEApplicationJSONCharsetUTF8 x1)) as [[[n ok]|v] x2] eqn:Hw; [|discriminate].
    intros E. injection E as <- <-. destruct (wWrite_used _ _ _ _ _ Hw) as (C & D & _).
    cbn [wSet w_written w_status] in D. rewrite A in D. rewrite D. split; [done|]. split; [done|]. exists n.
    apply (used_app _ _ _ [] [_] U2). by apply wWrite_call in Hw.
  - intros E. injection E as <- <-. cbn [wSet w_written w_status]. done.
Qed.

Lemma wXML_used code out ok x r x' :
  wXML u sniff code out ok x = (Norm r, x') ->
  exists cs all, used u (w_under x) cs (w_under x') /\ written_out out cs all /\ r = all && ok.
Proof.
  unfold wXML. destruct (wWriteHeader u code x) as [[[]|v] x1] eqn:H; [|discriminate].
  pose proof (wWriteHeader_used _ _ _ _ H) as U.
  pose proof (wSet_used HeaderContentType MIMEApplicationXMLCharsetUTF8 x1) as U1.
  pose proof (used_app _ _ _ [] [] U U1) as U2. intros E.
  destruct (wCopy_used _ _ _ _ _ E) as (cs & all & U3 & W & R). exists cs, all. split; [|done].
  apply (used_app _ _ _ [] _ U2 U3).
Qed.

Lemma wStream_used t ds eof x r x' :
  wStream u sniff t ds eof x = (Norm r, x') ->
  exists cs all, used u (w_under x) cs (w_under x') /\ written_out ds cs all /\ r = all && eof.
Proof.
  intros E. destruct (wCopy_used _ _ _ _ _ E) as (cs & all & U3 & W & R). exists cs, all. split; [|done].
  apply (used_app _ _ _ [] _ (wSet_used _ _ _) U3).
Qed.

Lemma wData_used code t d x x' :
  wData u sniff code t d x = (Norm tt, x') ->
  w_status x' = (if w_written x then w_status x else code) /\
  exists n ok, used u (w_under x) [mkCall d n ok] (w_under x').
Proof.
  unfold wData. destruct (wWriteHeader u code x) as [[[]|v] x1] eqn:H; [|discriminate].
  destruct (wWriteHeader_state _ _ _ _ H) as [A B]. pose proof (wWriteHeader_used _ _ _ _ H) as U.
  pose proof (wSet_used HeaderContentType t x1) as U1.
  pose proof (used_app _ _ _ [] [] U U1) as U2.
  destruct (wWrite u sniff d (wSet u HeaderContentType t x1)) as [[[n ok]|v] x2] eqn:Hw; [|discriminate].
  intros E. injection E as <-. destruct (wWrite_used _ _ _ _ _ Hw) as (C & D & _).
  cbn [wSet w_written w_status] in D. rewrite A in D. rewrite D. split; [done|]. exists n, ok.
  apply (used_app _ _ _ [] [_] U2). by apply wWrite_call in Hw.
Qed.
End Facts.
