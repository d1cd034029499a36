(** What the log of a served request looks like. *)
From Coq Require Import Sorting.Sorted.
From Verif Require Import Base GoStr Strconv Pattern Tree Header Router Ctx CtxFacts TraceSpec Engine.
Local Open Scope Z_scope.

Section Log.
Context {V : Type}.
Implicit Types l : list (event V).

Lemma starts_app l1 l2 : starts (l1 ++ l2) = starts l1 ++ starts l2.
Proof. apply omap_app. Qed.
Lemma sends_app l1 l2 : sends (l1 ++ l2) = sends l1 ++ sends l2.
Proof. apply omap_app. Qed.
Lemma data_of_app l1 l2 : data_of (l1 ++ l2) = data_of l1 ++ data_of l2.
Proof. unfold data_of. by rewrite omap_app, concat_app. Qed.
Lemma headers_of_snoc l (e : event V) : headers_of (l ++ [e]) = hdr_step (headers_of l) e.
Proof. unfold headers_of. by rewrite fold_left_app. Qed.
Lemma first_code_app l1 l2 : first_code (l1 ++ l2) =
  match first_code l1 with Some n => Some n | None => first_code l2 end.
Proof. unfold first_code. rewrite omap_app. by destruct (omap (asks (V:=V)) l1). Qed.
Lemma first_code_one (e : event V) : first_code [e] = asks e.
Proof. unfold first_code. simpl. by destruct (asks e). Qed.
End Log.

Section Serve.
Context {A V : Type}.
Variable re_find : gostr -> gostr -> option (list gostr).
Variable sniff : gostr -> gostr.
Variable parse_form : bool -> request -> gostr * bool -> gmap gostr (list gostr) * bool * gostr.
Variable code : handler A -> prog V.
Implicit Types x : ctxobj A V.
Implicit Types c : conn V.
Implicit Types e : engine A.

Local Notation call := (call sniff parse_form).
Local Notation crun := (crun sniff parse_form code).
Local Notation ServeHTTP := (ServeHTTP re_find sniff parse_form code).
Local Notation setup := (setup re_find).

(** the state in which the chain starts *)
Record ready x (id : nat) : Prop := {
  rd_fit : fit x;
  rd_index : x_index x = 0%nat;
  rd_written : x_written x = false;
  rd_status : x_status x = 0;
  rd_parsed : x_parsed x = false;
  rd_conn : x_conn x = Some id;
  rd_env : x_env x = Some ∅
}.

(** the three ways a request goes *)
Inductive served e (id : nat) x (r : request) (body : rbody) : ending -> conn V -> Prop :=
  | sv_refused n : refusal r = inl n -> (n = 406 \/ n = 405) ->
      served e id x r body EDone
        (mkConn r (mkRw ∅ (Some (n, ∅)) []) body None [EvSend n])
  | sv_notfound i x1 : refusal r = inr i -> setup e i id (arrive r body) x = (x1, false) ->
      served e id x r body EDone
        (mkConn r (mkRw ∅ (Some (404, ∅)) []) body None [EvSend 404])
  | sv_run i x1 en x' c' : refusal r = inr i -> setup e i id (arrive r body) x = (x1, true) ->
      crun (x_hlen x1) x1 (arrive r body) = (en, (x', c')) -> en <> EStuck ->
      served e id x r body en c'.

Lemma refusal_code r n : refusal r = inl n -> n = 406 \/ n = 405.
Proof.
  unfold refusal. destruct (_ || _ || _); [intros [= <-]; auto|].
  destruct (MethodIndex _); [done|]. intros [= <-]; auto.
Qed.



(** ** What one call does to the log and to the response flags *)

Lemma raw_WriteHeader_spec n c :
  raw_WriteHeader n c =
  match rw_sent (cn_rw c) with
  | Some _ => (Norm tt, log c (EvSend n))
  | None => if valid_code n
            then (Norm tt, set_rw (log c (EvSend n))
                             (mkRw (rw_hdr (cn_rw c)) (Some (n, rw_hdr (cn_rw c))) (rw_body (cn_rw c))))
            else (Throw (Some (L "invalid WriteHeader code")), log c (EvSend n))
  end.
Proof. reflexivity. Qed.

Definition quiet_op (o : op V) : Prop :=
  match o with
  | OWriteHeader _ | OWrite _ | ORawWriteHeader _ | ORawWrite _ => False
  | _ => True
  end.

Lemma quiet_log o x c r x' c' : quiet_op o -> call o x c = (r, (x', c')) ->
  cn_log c' = cn_log c ++ [EvCall o r] /\ x_written x' = x_written x /\ x_status x' = x_status x /\
  rw_sent (cn_rw c') = rw_sent (cn_rw c) /\ rw_body (cn_rw c') = rw_body (cn_rw c).
Proof.
  intros Hq H. apply call_eq in H as (c1 & Hd & ->). revert Hd.
  destruct o; try (by destruct Hq); simpl; try (intros H; inversion H; subst; by auto).
  - destruct (x_end x) as [[? [rt|]]|]; intros H; inversion H; subst; by auto.
  - destruct (x_params x); intros H; inversion H; subst; by auto.
  - destruct (x_env x) as [m|]; [destruct (m !! name)|]; intros H; inversion H; subst; by auto.
  - destruct (x_env x ≫= _); intros H; inversion H; subst; by auto.
  - destruct (x_env x) as [m|]; intros H; inversion H; subst; by auto.
  - destruct (x_parsed x); [intros H; inversion H; subst; by auto|].
    destruct (parse_form _ _ _) as [[f ok] rest].
    destruct ok; intros H; inversion H; subst; by auto.
Qed.

(** the events an operation adds, and the response flags afterwards *)
Lemma call_log o x c r x' c' : call o x c = (r, (x', c')) ->
  exists l, cn_log c' = cn_log c ++ l ++ [EvCall o r] /\ omap (asks (V:=V)) l = [] /\ starts l = [] /\
    (forall k, headers_of (k ++ l) = headers_of k) /\ data_of l = [] /\
    x_written x' = (x_written x || bool_decide (is_Some (asks (EvCall o r)))) /\
    x_status x' = (if x_written x then x_status x else
                   match asks (EvCall o r) with Some n => n | None => x_status x end).
Proof.
  intros H.
  assert (Hq : quiet_op o \/ ~ quiet_op o) by (destruct o; simpl; auto).
  destruct Hq as [Hq|Hq].
  { assert (Ha : asks (EvCall o r) = None) by (by destruct o).
    apply quiet_log in H as (Hl & Hw & Hs & _); [|exact Hq].
    exists []. rewrite Hl, Hw, Hs, Ha, (bool_decide_eq_false_2 (is_Some None)), orb_false_r, !app_nil_l by (by intros [??]).
    split_and!; try done; [intros k; by rewrite app_nil_r|by destruct (x_written x)]. }
  destruct o; try (by destruct Hq); clear Hq.
  - (* WriteHeader *) apply call_eq in H as (c1 & Hd & ->). simpl in Hd. unfold ctx_WriteHeader in Hd.
    destruct (x_written x) eqn:Hw.
    + inversion Hd; subst. exists []. simpl. rewrite Hw. split_and!; try done. intros k. by rewrite app_nil_r.
    + rewrite raw_WriteHeader_spec in Hd. exists [EvSend code0].
      assert (cn_log c1 = cn_log c ++ [EvSend code0] /\ x' = set_written x code0) as [Hc ->].
      { destruct (rw_sent _); [|destruct (valid_code code0)]; inversion Hd; subst; done. }
      simpl. rewrite Hc, <- app_assoc. split_and!; try done.
      intros k. by rewrite headers_of_snoc.
  - (* Write *) apply call_eq in H as (c1 & Hd & ->). simpl in Hd. unfold ctx_Write in Hd.
    assert (Hraw : forall c2, cn_log (raw_Write data c2) = cn_log c2 ++ [EvData data]).
    { intros c2. unfold raw_Write. cbn zeta. destruct (rw_sent (cn_rw (log c2 (EvData data)))) as [[n h]|]; simpl.
      - destruct (rw_sent _) as [[n' h']|]; [|done]. by destruct (body_allowed n').
      - done. }
    destruct (x_written x) eqn:Hw; simpl in Hd.
    + inversion Hd; subst. exists [EvData data]. simpl. rewrite Hraw, Hw, <- app_assoc.
      split_and!; try done. intros k. by rewrite headers_of_snoc.
    + match type of Hd with context [ctx_WriteHeader 200 x ?y] => set (c0 := y) in Hd end.
      assert (Hc0 : cn_log c0 = cn_log c) by (unfold c0; by destruct (_ && _)).
      unfold ctx_WriteHeader in Hd. rewrite Hw in Hd. rewrite raw_WriteHeader_spec in Hd.
      exists [EvSend 200; EvData data].
      assert (cn_log c1 = cn_log c ++ [EvSend 200; EvData data] /\ x' = set_written x 200) as [Hc ->].
      { destruct (rw_sent _); simpl in Hd; inversion Hd; subst; rewrite Hraw; simpl; rewrite Hc0;
          by rewrite <- app_assoc. }
      simpl. rewrite Hc, <- app_assoc. split_and!; try done.
      intros k. change [EvSend 200; EvData data] with ([EvSend 200] ++ [EvData data] : list (event V)).
      by rewrite app_assoc, !headers_of_snoc.
  - (* raw WriteHeader *) apply call_eq in H as (c1 & Hd & ->). cbn [do_op] in Hd.
    rewrite raw_WriteHeader_spec in Hd. exists [EvSend code0].
    assert (cn_log c1 = cn_log c ++ [EvSend code0] /\ x' = x) as [Hc ->].
    { destruct (rw_sent _); [|destruct (valid_code code0)]; inversion Hd; subst; done. }
    simpl. rewrite Hc, <- app_assoc, orb_false_r. split_and!; try done; [|by destruct (x_written x)].
    intros k. by rewrite headers_of_snoc.
  - (* raw Write *) apply call_eq in H as (c1 & Hd & ->). simpl in Hd. inversion Hd; subst.
    exists [EvData data]. simpl.
    assert (Hraw : cn_log (raw_Write data c) = cn_log c ++ [EvData data]).
    { unfold raw_Write. cbn zeta. destruct (rw_sent (cn_rw (log c (EvData data)))) as [[n h]|]; simpl.
      - destruct (rw_sent _) as [[n' h']|]; [|done]. by destruct (body_allowed n').
      - done. }
    rewrite Hraw, <- app_assoc, orb_false_r. split_and!; try done; [|by destruct (x_written x')].
    intros k. by rewrite headers_of_snoc.
Qed.

(** Written() and Status() follow the log *)
Definition flags x c : Prop :=
  x_written x = bool_decide (is_Some (first_code (cn_log c))) /\
  x_status x = match first_code (cn_log c) with Some n => n | None => 0 end.
Lemma flags_silent x c ev : flags x c -> asks ev = None -> flags x (log c ev).
Proof.
  unfold flags. simpl. intros [H1 H2] Ha. rewrite first_code_app, first_code_one, Ha.
  by destruct (first_code (cn_log c)).
Qed.
Lemma flags_call o x c r x' c' : flags x c -> call o x c = (r, (x', c')) -> flags x' c'.
Proof.
  intros [H1 H2] H. apply call_log in H as (l & Hl & Ha & _ & _ & _ & Hw & Hs).
  unfold flags. rewrite Hl, !first_code_app, first_code_one.
  assert (first_code l = None) as -> by (unfold first_code; by rewrite Ha).
  rewrite Hw, Hs, H1, H2. destruct (first_code (cn_log c)); [done|].
  rewrite (bool_decide_eq_false_2 (is_Some None)) by (by intros [??]). done.
Qed.

(** ** C16: starts are increasing *)
Definition asc (l : list nat) : Prop := StronglySorted lt l.
Lemma asc_snoc l n : asc l -> Forall (fun i => i < n)%nat l -> asc (l ++ [n]).
Proof.
  unfold asc. induction l as [|a l IH]; simpl; intros Hs Hf; [by repeat constructor|].
  inversion Hs; inversion Hf; subst. constructor; [auto|]. rewrite Forall_app. split; [done|]. by repeat constructor.
Qed.
Lemma starts_ordered :
  invariant sniff parse_form (fun _ : op V => True)
    (fun (x : ctxobj A V) c => asc (starts (cn_log c)) /\ Forall (fun i => i < x_index x /\ i < x_hlen x)%nat (starts (cn_log c)))
    (fun x c => asc (starts (cn_log c)) /\ Forall (fun i => i <= x_index x /\ i < x_hlen x)%nat (starts (cn_log c))).
Proof.
  split.
  - intros x c [H1 H2] _. split; [done|]. eapply Forall_impl; [exact H2|]. simpl. lia.
  - intros x c [H1 H2] Hlt. simpl. rewrite starts_app. simpl. split.
    + apply asc_snoc; [done|]. eapply Forall_impl; [exact H2|]. simpl. lia.
    + rewrite Forall_app. split; [|repeat constructor; lia]. eapply Forall_impl; [exact H2|]. simpl. lia.
  - intros o x c r x' c' _ [H1 H2] Hc. pose proof (call_run _ _ _ _ _ _ _ _ Hc) as [].
    apply call_log in Hc as (l & Hl & _ & Hst & _). rewrite Hl, !starts_app, Hst. simpl. rewrite !app_nil_r.
    by rewrite sr_index, sr_hlen.
  - intros x c [H1 H2]. simpl. rewrite starts_app. simpl. rewrite app_nil_r. split; [done|].
    eapply Forall_impl; [exact H2|]. simpl. lia.
  - intros x c i [H1 H2]. simpl. rewrite starts_app. simpl. rewrite app_nil_r.
    destruct (x_written x); (split; [done|]; eapply Forall_impl; [exact H2|]; simpl; lia).
Qed.

(** ** No handler is skipped as long as nothing was answered *)
Lemma starts_contiguous :
  invariant sniff parse_form (fun _ : op V => True)
    (fun (x : ctxobj A V) c => flags x c /\
       (x_written x = false -> starts (cn_log c) = seq 0 (min (x_hlen x) (x_index x))))
    (fun x c => flags x c /\
       (x_written x = false -> starts (cn_log c) = seq 0 (min (x_hlen x) (S (x_index x))))).
Proof.
  split.
  - intros x c [H1 H2] Hle. split; [done|]. intros Hw. rewrite (H2 Hw). f_equal. lia.
  - intros x c [H1 H2] Hlt. split; [by apply flags_silent|]. intros Hw. simpl. rewrite starts_app, (H2 Hw). simpl.
    rewrite !Nat.min_r by lia. rewrite seq_S. done.
  - intros o x c r x' c' _ [H1 H2] Hc. pose proof (call_run _ _ _ _ _ _ _ _ Hc) as [].
    split; [by eapply flags_call|]. intros Hw.
    apply call_log in Hc as (l & Hl & _ & Hst & _ & _ & Hw' & _).
    rewrite Hl, !starts_app, Hst. simpl. rewrite !app_nil_r, sr_index, sr_hlen. apply H2.
    rewrite Hw in Hw'. by destruct (x_written x).
  - intros x c [H1 H2]. split; [by apply (flags_silent (bump x))|]. intros Hw. simpl. rewrite starts_app. simpl.
    rewrite app_nil_r. by apply H2.
  - intros x c i [H1 H2]. destruct (x_written x) eqn:Hw.
    + split; [by apply (flags_silent (bump x))|]. intros Hw'. simpl in Hw'. congruence.
    + split; [by apply (flags_silent (bump x))|]. intros _. simpl. rewrite starts_app. simpl.
      rewrite app_nil_r. by apply H2.
Qed.

End Serve.
