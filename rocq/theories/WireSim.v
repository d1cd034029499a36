(** The helpers of Wire.v over a net/http connection with enough room do what the
    helpers of Content.v do. *)
From Verif Require Import Base GoStr Strconv Pattern Tree Header Router Ctx CtxFacts Content ContentFacts ServeFacts ServeProps Wire WireSpec WireFacts WireHttp.
Local Open Scope Z_scope.

Section Sim.
Context {A V : Type} (sniff : gostr -> gostr).
Variable parse_form : bool -> request -> gostr * bool -> gmap gostr (list gostr) * bool * gostr.
Implicit Types x : ctxobj A V.
Implicit Types c : conn V.
Implicit Types w : wctx (conn V * nat).
Implicit Types next : ctxobj A V -> conn V -> ending * (ctxobj A V * conn V).
Local Notation call := (call sniff parse_form).
Local Notation pexec := (pexec sniff parse_form).

(** the same response so far *)
Definition sim w x c : Prop :=
  w_written w = x_written x /\ w_status w = x_status x /\ cn_rw (fst (w_under w)) = cn_rw c.
Definition room w : nat := snd (w_under w).

Lemma sim_head n w x c : sim w x c ->
  exists o w' x' c', wWriteHeader http_writer n w = (o, w') /\ call (OWriteHeader n) x c = (o, (x', c')) /\
    sim w' x' c' /\ room w' = room w.
Proof.
  intros (W & St & R). unfold wWriteHeader, Ctx.call. cbn [Ctx.do_op]. unfold ctx_WriteHeader. rewrite W.
  destruct (x_written x) eqn:X.
  - eexists _, _, _, _. split; [done|]. split; [done|]. split; [|done]. split_and!; [congruence|done|done].
  - destruct w as [ww ws [cw rm]]. cbn [w_under fst snd http_writer u_head w_written w_status] in *.
    unfold raw_WriteHeader. cbn [log cn_rw]. rewrite <- R. destruct (rw_sent (cn_rw cw)) as [[k h]|].
    + eexists _, _, _, _. split; [done|]. split; [done|]. split; [|done]. split_and!; done.
    + destruct (valid_code n); eexists _, _, _, _; (split; [done|]); (split; [done|]); (split; [|done]); split_and!; cbn; try done.
Qed.

Lemma sim_set k v w x c : sim w x c ->
  exists c', call (OHeaderSet k v) x c = (Norm tt, (x, c')) /\ sim (wSet http_writer k v w) x c' /\ room (wSet http_writer k v w) = room w.
Proof.
  intros (W & St & R). rewrite call_HeaderSet. eexists. split; [done|].
  destruct w as [ww ws [cw rm]]. cbn in *. split; [|done]. split_and!; cbn; [done|done|]. by rewrite R.
Qed.

Lemma raw_Write_same d c1 c2 : cn_rw c1 = cn_rw c2 -> cn_rw (raw_Write d c1) = cn_rw (raw_Write d c2).
Proof.
  intros E. unfold raw_Write. cbn [log cn_rw]. rewrite <- E.
  destruct (rw_sent (cn_rw c1)) as [[k h]|] eqn:S1; simpl.
  - rewrite S1. destruct (body_allowed k); done.
  - done.
Qed.

(** Write: the same; the result is no error if the status allows a body *)
Lemma sim_write d w x c : sim w x c -> (length d <= room w)%nat ->
  match wWrite http_writer sniff d w with
  | (Norm (n, ok), w') =>
      exists x' c' st h, call (OWrite d) x c = (Norm tt, (x', c')) /\ sim w' x' c' /\
        (room w - length d <= room w')%nat /\
        x_written x' = true /\ rw_sent (cn_rw c') = Some (st, h) /\
        (if body_allowed st then n = length d /\ ok = true else n = 0%nat /\ ok = (length d =? 0)%nat)
  | (Throw v, w') => exists x' c', call (OWrite d) x c = (Throw v, (x', c')) /\ sim w' x' c'
  end.
Proof.
  intros Hs Hr. unfold wWrite, Ctx.call. cbn [Ctx.do_op]. unfold ctx_Write.
  assert (Q : forall w1 x1 c1, sim w1 x1 c1 -> room w1 = room w -> x_written x1 = true ->
    match (let '(n, ok, s) := u_write http_writer d (w_under w1) in
              (Norm (n, ok), mkW (w_written w1) (w_status w1) s)) with
    | (Norm (n, ok), w') => exists st h, sim w' x1 (log (raw_Write d c1) (EvCall (OWrite d) (Norm tt))) /\
        (room w - length d <= room w')%nat /\
        rw_sent (cn_rw (raw_Write d c1)) = Some (st, h) /\
        (if body_allowed st then n = length d /\ ok = true else n = 0%nat /\ ok = (length d =? 0)%nat)
    | (Throw v, w') => False
    end).
  { intros w1 x1 c1 (W & St & R) Hroom Hw. destruct w1 as [ww ws [cw rm]].
    cbn [w_under fst snd w_written w_status room] in *. subst rm.
    cbn [http_writer u_write fst snd].
    replace (Nat.min (room w) (length d)) with (length d) by lia. rewrite firstn_all.
    destruct (raw_Write_sent d cw) as (st & h & E & _ & _). rewrite E.
    pose proof (raw_Write_same d _ _ R) as Rw.
    assert (E' : rw_sent (cn_rw (raw_Write d c1)) = Some (st, h)) by (rewrite <- Rw; exact E).
    destruct (body_allowed st) eqn:B; exists st, h.
    - split; [split_and!; done|]. split; [cbn; lia|]. split; [exact E'|]. rewrite B. split; [done|]. apply Nat.eqb_refl.
    - split; [split_and!; done|]. split; [cbn; lia|]. split; [exact E'|]. rewrite B. done. }
  pose proof Hs as (W & St & R). rewrite W. destruct (x_written x) eqn:X; simpl negb; cbn iota.
  - specialize (Q w x c Hs eq_refl X).
    destruct (u_write http_writer d (w_under w)) as [[n ok] s]. cbn iota beta in Q |- *.
    destruct Q as (st & h & Q1 & Q2 & Q3 & Q4). eexists _, _, st, h. split; [reflexivity|].
    split; [exact Q1|]. split; [exact Q2|]. split; [exact X|]. split; [exact Q3|exact Q4].
  - replace (u_hdr http_writer (w_under w)) with (rw_hdr (cn_rw c)) by (cbn; by rewrite R).
    set (b := negb (length d =? 0)%nat && seqb (h_get (rw_hdr (cn_rw c)) (L "Content-Type")) []).
    set (w0 := if b then wSet http_writer (L "Content-Type") (sniff d) w else w).
    set (c0 := if b then set_hdr c (h_set (rw_hdr (cn_rw c)) (L "Content-Type") (sniff d)) else c).
    assert (Hs0 : sim w0 x c0 /\ room w0 = room w).
    { unfold w0, c0. destruct b; [|done]. destruct w as [ww ws [cw rm]]. cbn in *. split; [|done].
      split_and!; cbn; [congruence|done|]. by rewrite R. }
    destruct Hs0 as [Hs0 Hr0].
    destruct (sim_head 200 w0 x c0 Hs0) as (o & w1 & x1 & c1 & Hw1 & Hc1 & Hs1 & Hr1).
    rewrite Hw1. unfold Ctx.call in Hc1. cbn [Ctx.do_op] in Hc1.
    destruct (ctx_WriteHeader 200 x c0) as [o1 [x2 c2]] eqn:Ec. injection Hc1 as -> -> <-.
    assert (X1 : x_written x1 = true).
    { unfold ctx_WriteHeader in Ec. rewrite X in Ec.
      destruct (raw_WriteHeader 200 c0). injection Ec as _ <- _. done. }
    assert (Hs2 : sim w1 x1 c2) by exact Hs1.
    destruct o as [[]|v].
    + specialize (Q w1 x1 c2 Hs2 (eq_trans Hr1 Hr0) X1).
      destruct (u_write http_writer d (w_under w1)) as [[n ok] s]. cbn iota beta in Q |- *.
      destruct Q as (st & h & Q1 & Q2 & Q3 & Q4). eexists _, _, st, h. split; [reflexivity|].
      split; [exact Q1|]. split; [exact Q2|]. split; [exact X1|]. split; [exact Q3|exact Q4].
    + eexists _, _. split; [reflexivity|]. exact Hs1.
Qed.

(** where the status allows no body, writing changes nothing *)
Lemma silent next es : forall x c st h, x_written x = true -> rw_sent (cn_rw c) = Some (st, h) -> body_allowed st = false ->
  exists c', (forall k, pexec next (seqp (map OWrite es) k) x c = pexec next k x c') /\ cn_rw c' = cn_rw c.
Proof.
  induction es as [|e es IH]; intros x c st h Hx Hs Hb.
  - exists c. done.
  - assert (R : cn_rw (raw_Write e c) = cn_rw c).
    { unfold raw_Write. cbn [log cn_rw]. rewrite Hs. simpl. rewrite Hs, Hb. done. }
    destruct (IH x (log (raw_Write e c) (EvCall (OWrite e) (Norm tt))) st h) as (c' & E1 & E2); [done| |done|].
    + cbn [log cn_rw]. by rewrite R.
    + exists c'. split; [|by rewrite E2].
      intros k. cbn [map]. rewrite pexec_seqp, call_Write_written by done. apply E1.
Qed.

(** pieces *)
Lemma sim_copy next ds eof : forall w x c, sim w x c -> (length (concat ds) <= room w)%nat ->
  let os := map OWrite (List.filter (fun d => negb (length d =? 0)%nat) ds) in
  match wCopy http_writer sniff ds eof w with
  | (Norm r, w') => exists x' c', (forall k, pexec next (seqp os k) x c = pexec next k x' c') /\ sim w' x' c'
  | (Throw v, w') => exists x' c', (forall k, pexec next (seqp os k) x c = (EThrow v, (x', c'))) /\ sim w' x' c'
  end.
Proof.
  induction ds as [|d ds IH]; intros w x c Hs Hr; cbn zeta; cbn [wCopy].
  - cbn. exists x, c. done.
  - cbn [concat] in Hr. rewrite app_length in Hr. cbn [List.filter]. destruct (length d =? 0)%nat eqn:N; simpl negb; cbn iota.
    + apply IH; [done|lia].
    + cbn [map]. pose proof (sim_write d w x c Hs ltac:(lia)) as Q.
      destruct (wWrite http_writer sniff d w) as [[[n ok]|v] w1].
      * destruct Q as (x1 & c1 & st & h & E & Hs1 & Hr1 & Hx & Hst & Hb).
        destruct (body_allowed st) eqn:B.
        -- destruct Hb as [-> ->]. rewrite Nat.eqb_refl. cbn [andb].
           specialize (IH w1 x1 c1 Hs1 ltac:(lia)). cbn zeta in IH.
           destruct (wCopy http_writer sniff ds eof w1) as [[r|v] w'];
             destruct IH as (x' & c' & E1 & S1); exists x', c'; (split; [|done]); intros k; by rewrite pexec_seqp, E.
        -- destruct Hb as [-> ->]. rewrite N. cbn [andb].
           set (es := List.filter (fun d => negb (length d =? 0)%nat) ds).
           destruct (silent next es x1 c1 st h Hx Hst B) as (c' & E1 & E2).
           exists x1, c'. split; [intros k; by rewrite pexec_seqp, E|]. destruct Hs1 as (W & S1 & R).
           split_and!; [done|done|]. by rewrite R, E2.
      * destruct Q as (x1 & c1 & E & Hs1). exists x1, c1. split; [|done]. intros k. rewrite pexec_seqp, E. done.
Qed.

(** ** The helpers *)
Lemma sim_stream next t ds eof w x c (k : bool -> prog V) : sim w x c -> (length (concat ds) <= room w)%nat ->
  match wStream http_writer sniff t ds eof w with
  | (Norm r, w') => exists x' c', pexec next (Stream t ds r k) x c = pexec next (k r) x' c' /\ sim w' x' c'
  | (Throw v, w') => exists x' c', (forall ok, pexec next (Stream t ds ok k) x c = (EThrow v, (x', c'))) /\ sim w' x' c'
  end.
Proof.
  intros Hs Hr. unfold wStream, Stream. destruct (sim_set HeaderContentType t w x c Hs) as (c1 & E & Hs1 & Hr1).
  assert (Hr2 : (length (concat ds) <= room (wSet http_writer HeaderContentType t w))%nat) by (rewrite Hr1; done).
  pose proof (sim_copy next ds eof _ x c1 Hs1 Hr2) as Q. cbn zeta in Q.
  destruct (wCopy http_writer sniff ds eof (wSet http_writer HeaderContentType t w)) as [[r|v] w'];
    destruct Q as (x' & c' & E1 & S1); exists x', c'; (split; [|done]).
  - rewrite pexec_seqp, E. apply E1.
  - intros ok. rewrite pexec_seqp, E. apply E1.
Qed.

Lemma sim_data next n t d w x c (k : prog V) : sim w x c -> (length d <= room w)%nat ->
  match wData http_writer sniff n t d w with
  | (Norm _, w') => exists x' c', pexec next (Data n t d k) x c = pexec next k x' c' /\ sim w' x' c'
  | (Throw v, w') => exists x' c', pexec next (Data n t d k) x c = (EThrow v, (x', c')) /\ sim w' x' c'
  end.
Proof.
  intros Hs Hr. unfold wData, Data.
  destruct (sim_head n w x c Hs) as (o & w1 & x1 & c1 & E1 & E2 & Hs1 & Hr1). rewrite E1.
  destruct o as [[]|v].
  - destruct (sim_set HeaderContentType t w1 x1 c1 Hs1) as (c2 & E3 & Hs2 & Hr2).
    pose proof (sim_write d _ x1 c2 Hs2 ltac:(lia)) as Q.
    destruct (wWrite http_writer sniff d (wSet http_writer HeaderContentType t w1)) as [[[m ok]|v] w3].
    + destruct Q as (x3 & c3 & st & h & E & Hs3 & _). exists x3, c3. split; [|done].
      by rewrite pexec_seqp, E2, pexec_seqp, E3, pexec_seqp, E.
    + destruct Q as (x3 & c3 & E & Hs3). exists x3, c3. split; [|done].
      by rewrite pexec_seqp, E2, pexec_seqp, E3, pexec_seqp, E.
  - exists x1, c1. split; [|done]. by rewrite pexec_seqp, E2.
Qed.

Lemma sim_json next n enc w x c (k : bool -> prog V) : sim w x c ->
  (match enc with Some d => length d | None => 0 end <= room w)%nat ->
  let out := match enc with Some d => [d] | None => [] end in
  match wJSON http_writer sniff n enc w with
  | (Norm r, w') => exists x' c', pexec next (JSON n out r k) x c = pexec next (k r) x' c' /\ sim w' x' c'
  | (Throw v, w') => exists x' c', (forall ok, pexec next (JSON n out ok k) x c = (EThrow v, (x', c'))) /\ sim w' x' c'
  end.
Proof.
  intros Hs Hr. cbn zeta. unfold wJSON, JSON.
  destruct (sim_head n w x c Hs) as (o & w1 & x1 & c1 & E1 & E2 & Hs1 & Hr1). rewrite E1.
  destruct o as [[]|v].
  - destruct (sim_set HeaderContentType MIMEApplicationJSONCharsetUTF8 w1 x1 c1 Hs1) as (c2 & E3 & Hs2 & Hr2).
    cbn zeta. destruct enc as [d|].
    + pose proof (sim_write d _ x1 c2 Hs2 ltac:(lia)) as Q.
      destruct (wWrite http_writer sniff d (wSet http_writer HeaderContentType MIMEApplicationJSONCharsetUTF8 w1)) as [[[m ok]|v] w3].
      * destruct Q as (x3 & c3 & st & h & E & Hs3 & _). exists x3, c3. split; [|done]. cbn [map].
        by rewrite pexec_seqp, E2, pexec_seqp, E3, pexec_seqp, E.
      * destruct Q as (x3 & c3 & E & Hs3). exists x3, c3. split; [|done]. intros ok. cbn [map].
        by rewrite pexec_seqp, E2, pexec_seqp, E3, pexec_seqp, E.
    + exists x1, c2. split; [|done]. cbn [map]. by rewrite pexec_seqp, E2, pexec_seqp, E3.
  - exists x1, c1. split; [|done]. intros ok. by rewrite pexec_seqp, E2.
Qed.

Lemma sim_xml next n out ok w x c (k : bool -> prog V) : sim w x c -> (length (concat out) <= room w)%nat ->
  (forall d, In d out -> d <> []) ->
  match wXML http_writer sniff n out ok w with
  | (Norm r, w') => exists x' c', pexec next (XML n out r k) x c = pexec next (k r) x' c' /\ sim w' x' c'
  | (Throw v, w') => exists x' c', (forall r, pexec next (XML n out r k) x c = (EThrow v, (x', c'))) /\ sim w' x' c'
  end.
Proof.
  intros Hs Hr Hne. unfold wXML, XML.
  assert (F : List.filter (fun d : list ascii => negb (length d =? 0)%nat) out = out).
  { clear Hr. induction out as [|d out IH]; [done|]. cbn [List.filter].
    destruct d as [|a d]; [by destruct (Hne [] (or_introl eq_refl))|]. cbn. rewrite IH; [done|].
    intros d' Hd. apply Hne. by right. }
  destruct (sim_head n w x c Hs) as (o & w1 & x1 & c1 & E1 & E2 & Hs1 & Hr1). rewrite E1.
  destruct o as [[]|v].
  - destruct (sim_set HeaderContentType MIMEApplicationXMLCharsetUTF8 w1 x1 c1 Hs1) as (c2 & E3 & Hs2 & Hr2).
    pose proof (sim_copy next out ok _ x1 c2 Hs2 ltac:(lia)) as Q. cbn zeta in Q. rewrite F in Q.
    destruct (wCopy http_writer sniff out ok (wSet http_writer HeaderContentType MIMEApplicationXMLCharsetUTF8 w1)) as [[r|v] w'];
      destruct Q as (x' & c' & E & S1); exists x', c'; (split; [|done]).
    + rewrite pexec_seqp, E2, pexec_seqp, E3. apply E.
    + intros r. rewrite pexec_seqp, E2, pexec_seqp, E3. apply E.
  - exists x1, c1. split; [|done]. intros r. by rewrite pexec_seqp, E2.
Qed.
End Sim.
