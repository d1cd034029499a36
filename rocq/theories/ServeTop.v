(** Serving a request, from the registered routes to the log. *)
From Coq Require Import Sorted.
From Verif Require Import Base GoStr Strconv Pattern Tree GoStrFacts TreeSpec ListFacts TreeFacts TreeMatch TreeTop
  TreeOrder RoutingFacts Header Router RouterSpec RouterFacts RouterDump MethodFacts HandlerFacts RouterProps Ctx
  CtxFacts TraceSpec Engine ServeFacts ServeProps EngineSpec.
Local Open Scope Z_scope.

Section Top.
Context {A V : Type}.
Variable re_ok : gostr -> bool.
Variable re_find : gostr -> gostr -> option (list gostr).
Variable sniff : gostr -> gostr.
Variable parse_form : bool -> request -> gostr * bool -> gmap gostr (list gostr) * bool * gostr.
Variable code : handler A -> prog V.
Implicit Types x : ctxobj A V.
Implicit Types c : conn V.
Implicit Types e : engine A.

Local Notation call := (call sniff parse_form).
Local Notation crun := (crun sniff parse_form code).
Local Notation pexec := (pexec sniff parse_form).
Local Notation ServeHTTP := (ServeHTTP re_find sniff parse_form code).
Local Notation find_node := (find_node re_find).

(** ** Refusals *)
Lemma names_index m : m ∈ seven_methods <-> exists i, MethodIndex m = Some i.
Proof. apply MethodIndex_names. Qed.
Lemma proto_old r : proto_11 r = false <-> old_protocol r.
Proof.
  unfold proto_11, old_protocol. rewrite orb_false_iff, andb_false_iff, Nat.ltb_ge, Nat.eqb_neq, Nat.leb_gt. lia.
Qed.
Lemma unacceptable_b r :
  negb (proto_11 r) || seqb (rq_uri r) (L "*") || seqb (rq_method r) (L "CONNECT") = true <-> unacceptable r.
Proof.
  unfold unacceptable. rewrite !orb_true_iff, negb_true_iff, proto_old, !seqb_true. tauto.
Qed.
Lemma refusal_refused r n : refusal r = inl n <-> refused r n.
Proof.
  unfold refusal. split.
  - destruct (_ || _ || _) eqn:Hu.
    + intros [= <-]. constructor. by apply unacceptable_b.
    + destruct (MethodIndex _) eqn:Hm; [done|]. intros [= <-]. constructor 2.
      * rewrite <- unacceptable_b. congruence.
      * rewrite names_index. intros [i Hi]. congruence.
  - destruct 1 as [Hu|Hu Hm].
    + apply unacceptable_b in Hu. by rewrite Hu.
    + rewrite <- unacceptable_b in Hu. apply not_true_is_false in Hu. rewrite Hu.
      rewrite names_index in Hm. destruct (MethodIndex _) eqn:Hi; [|done]. destruct Hm. eauto.
Qed.
Lemma refusal_none r i : refusal r = inr i <-> ~ unacceptable r /\ MethodIndex (rq_method r) = Some i.
Proof.
  unfold refusal. split.
  - destruct (_ || _ || _) eqn:Hu; [done|]. destruct (MethodIndex _) eqn:Hm; [|done]. intros [= <-]. split; [|done].
    rewrite <- unacceptable_b. congruence.
  - intros [Hu Hm]. rewrite <- unacceptable_b in Hu. apply not_true_is_false in Hu. by rewrite Hu, Hm.
Qed.

(** ** The context a chain starts in *)
Definition fresh (id : nat) (hs : list (handler A)) (ps : option Params)
    (n : option (enode (handler A) * option (route A))) : ctxobj A V :=
  mkCtx (Some ∅) ps (Some id) hs (length hs) 0 false 0 n false.

(** the run of a chain *)
Definition ran (id : nat) hs ps n r body (en : ending) (c' : conn V) : Prop :=
  exists x', crun (length hs) (fresh id hs ps n) (arrive r body) = (en, (x', c')).

Lemma serve_split e id x r body en px c' : ServeHTTP e id x (arrive r body) = (en, px, c') ->
  (exists n, refused r n /\ en = EDone /\ c' = bare r body n) \/
  (exists i, ~ unacceptable r /\ MethodIndex (rq_method r) = Some i /\
     match find_node e i (rq_path r) (x_params x) with
     | (Some (n, rt), ps) => ran id (e_handlers n) ps (Some (n, rt)) r body en c'
     | (None, ps) =>
         match o_nofound (en_options e) with
         | [] => en = EDone /\ c' = bare r body 404
         | hs => ran id hs ps None r body en c'
         end
     end).
Proof.
  unfold Engine.ServeHTTP. change (cn_req (arrive r body)) with r.
  destruct (refusal r) as [n|i] eqn:Hr.
  - left. exists n. pose proof (refusal_code _ _ Hr) as Hn. apply refusal_refused in Hr. split; [done|].
    destruct Hn as [-> | ->]; cbn in H; by inversion H.
  - right. exists i. apply refusal_none in Hr as [Hr1 Hr2]. split; [done|]. split; [done|].
    unfold Engine.setup in H. change (x_params (set_conn (reset x) id)) with (x_params x) in H.
    change (rq_path (cn_req (arrive r body))) with (rq_path r) in H.
    destruct (find_node e i (rq_path r) (x_params x)) as [[[n rt]|] ps] eqn:Hf.
    + match type of H with context [crun ?f ?y ?z] => destruct (crun f y z) as [en1 [x1 c1]] eqn:Hc end.
      exists x1. by inversion H; subst.
    + destruct (o_nofound (en_options e)) as [|h hs] eqn:Hn.
      * by inversion H.
      * match type of H with context [crun ?f ?y ?z] => destruct (crun f y z) as [en1 [x1 c1]] eqn:Hc end.
        exists x1. by inversion H; subst.
Qed.

(** ** The log is that of the handlers' code *)
Section Code.
Variable hs : list (handler A).
Lemma pexec_did (P : ctxobj A V -> Prop) (next : ctxobj A V -> conn V -> ending * (ctxobj A V * conn V)) :
  (forall o x c r1 x1 c1, P x -> call o x c = (r1, (x1, c1)) -> P x1) ->
  (forall x c r1 x1 c1, P x -> next x c = (r1, (x1, c1)) ->
     P x1 /\ r1 <> EStuck /\ exists l, cn_log c1 = cn_log c ++ EvNext :: l /\ turns code hs l r1) ->
  forall p x c r1 x1 c1, P x -> pexec next p x c = (r1, (x1, c1)) ->
  P x1 /\ r1 <> EStuck /\ exists l, cn_log c1 = cn_log c ++ l /\ did code hs p l r1.
Proof.
  intros HP Hn. induction p as [|v|o k IH|k IH|b IHb k IH]; simpl; intros x c r1 x1 c1 Hx H.
  - inversion H; subst. split; [done|]. split; [done|]. exists []. rewrite app_nil_r. split; [done|constructor].
  - inversion H; subst. split; [done|]. split; [done|]. exists []. rewrite app_nil_r. split; [done|constructor].
  - destruct (call o x c) as [ro [x2 c2]] eqn:Hc. pose proof (HP _ _ _ _ _ _ Hx Hc) as Hx2.
    apply call_wire in Hc as (w & Hl & Hw).
    assert (Hw' : Forall on_wire w) by (eapply Forall_impl; [exact Hw|]; by intros []).
    destruct ro as [a|v].
    + apply IH in H as (H1 & H2 & l & H3 & H4); [|done].
      split; [done|]. split; [done|]. exists (w ++ EvCall o (Norm a) :: l). rewrite H3, Hl, <- !app_assoc. split; [done|].
      by constructor.
    + inversion H; subst r1 x2 c2. split; [done|]. split; [done|].
      exists (w ++ [EvCall o (Throw v)]). rewrite Hl, <- app_assoc. split; [done|]. by constructor.
  - destruct (next x c) as [r2 [x2 c2]] eqn:Hnx. apply Hn in Hnx as (N1 & N3 & l1 & N4 & N5); [|done].
    destruct r2 as [|v|]; [| |done].
    + apply IH in H as (H1 & H2 & l & H3 & H4); [|done]. split; [done|]. split; [done|].
      exists (EvNext :: l1 ++ l). rewrite H3, N4, <- app_assoc. split; [done|]. by constructor.
    + inversion H; subst. split; [done|]. split; [done|]. exists (EvNext :: l1). split; [done|]. by constructor.
  - destruct (pexec next b x c) as [r2 [x2 c2]] eqn:Hb. apply IHb in Hb as (N1 & N3 & l1 & N4 & N5); [|done].
    destruct r2 as [|v|]; [| |done].
    + apply IH in H as (H1 & H2 & l & H3 & H4); [|done]. split; [done|]. split; [done|].
      exists (l1 ++ l). rewrite H3, N4, <- app_assoc. split; [done|]. by constructor.
    + apply IH in H as (H1 & H2 & l & H3 & H4); [|done]. split; [done|]. split; [done|].
      exists (l1 ++ l). rewrite H3, N4, <- app_assoc. split; [done|]. by eapply did_try_panic.
Qed.

Lemma crun_turns fuel : forall x c r1 x1 c1, x_handlers x = hs -> fit x -> (x_hlen x <= x_index x + fuel)%nat ->
  crun fuel x c = (r1, (x1, c1)) -> exists l, cn_log c1 = cn_log c ++ l /\ turns code hs l r1.
Proof.
  induction fuel as [|fuel IH]; intros x c r1 x1 c1 Hx Hfit Hle H; simpl in H;
    (destruct (x_index x <? x_hlen x)%nat eqn:Hlt;
     [apply Nat.ltb_lt in Hlt|inversion H; subst; exists []; rewrite app_nil_r; by split; [|constructor]]).
  - lia.
  - destruct (x_handlers x !! x_index x) as [h|] eqn:Hh.
    2: { apply lookup_ge_None in Hh. unfold fit in Hfit. lia. }
    match type of H with context [Ctx.pexec _ _ ?nx _ _ _] => set (next := nx) in H end.
    destruct (pexec next (code h) x (log c (EvStart (x_index x)))) as [r2 [x2 c2]] eqn:Hp.
    apply (pexec_did (fun y => x_handlers y = hs /\ fit y /\ (x_index x <= x_index y)%nat)) in Hp
      as ((P1 & P2 & P3) & P4 & l & P5 & P6); [| | |done].
    + simpl in P5. destruct r2 as [|v|]; [| |done].
      * simpl in H. destruct (x_written x2).
        -- inversion H; subst. exists (EvStart (x_index x) :: l ++ [EvEnd (x_index x)]). simpl. rewrite P5, <- !app_assoc.
           split; [done|]. eapply (turns_one code _ _ h); [congruence|done|constructor].
        -- apply IH in H as (l2 & H1 & H2); [|done|done|].
           2: { simpl. unfold fit in *. rewrite P2, P1, <- Hx, <- Hfit. lia. }
           exists (EvStart (x_index x) :: l ++ EvEnd (x_index x) :: l2). rewrite H1. simpl. rewrite P5, <- !app_assoc.
           split; [done|]. eapply (turns_one code _ _ h); [congruence|done|done].
      * inversion H; subst. exists (EvStart (x_index x) :: l). rewrite P5, <- app_assoc. split; [done|].
        eapply turns_panic; [|exact P6]. congruence.
    + intros o y cy r2' y' cy' (H1 & H2 & H3) Hc. apply call_run in Hc as [].
      unfold fit in *. split_and!; [congruence|congruence|lia].
    + intros y cy r2' y' cy' (H1 & H2 & H3) Hc. unfold next in Hc.
      assert (Hle' : (x_hlen (set_index y (S (x_index y))) <= x_index (set_index y (S (x_index y))) + fuel)%nat).
      { simpl. unfold fit in *. rewrite H2, H1, <- Hx, <- Hfit. lia. }
      pose proof Hc as Hc'. apply crun_total in Hc' as (T1 & T2 & T3 & T4); [|done|done].
      apply IH in Hc as (l' & L1 & L2); [|done|done|done].
      split_and!; [simpl in T3; congruence|unfold fit in *; simpl in *; congruence|simpl in T4; lia|done|].
      exists l'. rewrite L1. simpl. by rewrite <- app_assoc.
Qed.
End Code.

(** ** What holds of the log of a run *)
Section Ran.
Variables (id : nat) (hs : list (handler A)) (ps : option Params)
  (n : option (enode (handler A) * option (route A))) (r : request) (body : rbody) (en : ending) (c' : conn V).
Hypothesis Hran : ran id hs ps n r body en c'.

Lemma ran_inv (P : op V -> Prop) Ph Pp : invariant sniff parse_form P Ph Pp ->
  (forall h, h ∈ hs -> only P (code h)) -> Ph (fresh id hs ps n) (arrive r body) ->
  exists x', Pp x' c' /\ x_hlen x' = length hs.
Proof.
  intros Hi Hcode HP. destruct Hran as [x' Hc]. exists x'. split.
  - eapply (crun_inv sniff parse_form code P Ph Pp Hi _ (fresh id hs ps n)); [exact Hcode|done| |exact HP|exact Hc]. simpl. lia.
  - apply crun_total in Hc as (_ & Hl & _); [exact Hl|done|simpl; lia].
Qed.

Lemma ran_order : asc (starts (cn_log c')) /\ Forall (fun i => i < length hs)%nat (starts (cn_log c')).
Proof.
  destruct (ran_inv _ _ _ (starts_ordered sniff parse_form)) as (x' & (H1 & H2) & H3).
  - intros h _. apply only_any.
  - split; [constructor|constructor].
  - split; [done|]. eapply Forall_impl; [exact H2|]. simpl. intros i [_ ?]. by rewrite <- H3.
Qed.
Lemma flags_fresh : flags (fresh id hs ps n) (arrive r body).
Proof. done. Qed.
Lemma ran_start : hist start_rule (cn_log c').
Proof.
  destruct (ran_inv _ _ _ (start_invariant sniff parse_form)) as (x' & (H1 & H2) & H3).
  - intros h _. apply only_any.
  - split; [done|]. split; [apply hist_nil|by left].
  - done.
Qed.
Lemma ran_flags : hist flag_rule (cn_log c').
Proof.
  destruct (ran_inv _ _ _ (flag_invariant sniff parse_form)) as (x' & (H1 & H2) & H3).
  - intros h _. apply only_any.
  - split; [done|apply hist_nil].
  - done.
Qed.
Lemma ran_env : hist env_rule (cn_log c').
Proof.
  destruct (ran_inv _ _ _ (env_invariant sniff parse_form)) as (x' & (H1 & H2) & H3).
  - intros h _. apply only_any.
  - split; [|apply hist_nil]. exists ∅. split; [done|]. intros k. by rewrite lookup_empty.
  - done.
Qed.
Lemma ran_path u : path_of n u -> hist (path_rule u) (cn_log c').
Proof.
  intros Hu. destruct (ran_inv _ _ _ (path_invariant sniff parse_form u)) as (x' & (H1 & H2) & H3).
  - intros h _. apply only_any.
  - split; [done|apply hist_nil].
  - done.
Qed.
Lemma ran_param : hist (param_rule ps) (cn_log c').
Proof.
  destruct (ran_inv _ _ _ (param_invariant sniff parse_form ps)) as (x' & (H1 & H2) & H3).
  - intros h _. apply only_any.
  - split; [done|apply hist_nil].
  - done.
Qed.
Lemma ran_response : (forall h, h ∈ hs -> only (fun o => ~ raw o) (code h)) ->
  response sniff (cn_log c') (cn_rw c').
Proof.
  intros Hraw. destruct (ran_inv _ _ _ (response_invariant sniff parse_form)) as (x' & (H1 & H2) & H3).
  - exact Hraw.
  - split; [done|]. by left.
  - done.
Qed.

Lemma gap_invariant : invariant (A:=A) sniff parse_form (fun _ : op V => True)
  (fun x c => (flags x c /\
     (x_written x = false -> starts (cn_log c) = seq 0 (min (x_hlen x) (x_index x)))) /\ hist no_gap (cn_log c))
  (fun x c => (flags x c /\
     (x_written x = false -> starts (cn_log c) = seq 0 (min (x_hlen x) (S (x_index x))))) /\ hist no_gap (cn_log c)).
Proof.
  destruct (starts_contiguous (A:=A) (V:=V) sniff parse_form) as [I1 I2 I3 I4 I5]. split.
  - intros x c [H1 H2] Hle. split; [by apply I1|done].
  - intros x c [H1 H2] Hlt. split; [by apply I2|]. simpl. apply hist_snoc. split; [done|]. simpl.
    intros Hn. destruct H1 as [[Hw _] Hs]. rewrite Hs; [f_equal; lia|]. rewrite Hw. apply bool_decide_eq_false.
    by rewrite <- responded_iff.
  - intros o x c rr x' c1 Ho [H1 H2] Hc. split; [by eapply I3|].
    apply call_wire in Hc as (w & -> & Hw). apply hist_snoc. split; [|done]. apply hist_wire; [|done|done].
    by intros l [].
  - intros x c [H1 H2]. split; [by apply I4|]. simpl. by apply hist_snoc.
  - intros x c i [H1 H2]. specialize (I5 x c i H1). destruct (x_written x); (split; [done|]; simpl; by apply hist_snoc).
Qed.
Lemma crun_done fuel : forall x c x' c1, fit x -> (x_hlen x <= x_index x + fuel)%nat ->
  crun fuel x c = (EDone, (x', c1)) -> x_written x' = true \/ (x_hlen x' <= x_index x')%nat.
Proof.
  induction fuel as [|fuel IH]; intros x c x' c1 Hfit Hle Hx; simpl in Hx;
    (destruct (x_index x <? x_hlen x)%nat eqn:Hlt;
     [apply Nat.ltb_lt in Hlt|apply Nat.ltb_ge in Hlt; inversion Hx; subst; by right]).
  - lia.
  - destruct (x_handlers x !! x_index x) as [h|] eqn:Hh; [|done].
    match type of Hx with context [Ctx.pexec _ _ ?nx _ _ _] => set (next := nx) in Hx end.
    destruct (pexec next (code h) x (log c (EvStart (x_index x)))) as [r1 [x1 c2]] eqn:Hp.
    apply (pexec_total sniff parse_form (fun y => x_hlen y = x_hlen x /\ x_handlers y = x_handlers x /\ (x_index x <= x_index y)%nat))
      in Hp as [(H1 & H2 & H3) Hr1]; [| | |done].
    + destruct r1; [|done|done]. simpl in Hx. destruct (x_written x1) eqn:Hw.
      * inversion Hx; subst. by left.
      * apply IH in Hx; [done| |simpl; lia]. unfold fit in *. simpl. congruence.
    + intros o y cy r2 y' cy' (H1 & H2 & H3) Hc. apply call_run in Hc as []. split_and!; [congruence|congruence|lia].
    + intros y cy r2 y' cy' (H1 & H2 & H3) Hc. unfold next in Hc. apply crun_total in Hc.
      * simpl in Hc. destruct Hc as (?&?&?&?). split_and!; [congruence|congruence|lia|done].
      * unfold fit in *. simpl. congruence.
      * simpl. lia.
Qed.
Lemma ran_gap : hist no_gap (cn_log c') /\
  (en = EDone -> ~ responded (cn_log c') -> starts (cn_log c') = seq 0 (length hs)).
Proof.
  destruct Hran as [x' Hc].
  assert (Hi : (flags x' c' /\
     (x_written x' = false -> starts (cn_log c') = seq 0 (min (x_hlen x') (S (x_index x'))))) /\ hist no_gap (cn_log c')).
  { eapply (crun_inv sniff parse_form code _ _ _ gap_invariant _ (fresh id hs ps n)); [intros h _; apply only_any|done| | |exact Hc]; [simpl; lia|].
    split; [split; [done|]|apply hist_nil]. intros _. simpl. by rewrite Nat.min_0_r. }
  destruct Hi as [[[Hw _] Hs] Hh]. split; [done|]. intros -> Hn.
  assert (x_written x' = false) as Hw'.
  { rewrite Hw. apply bool_decide_eq_false. by rewrite <- responded_iff. }
  rewrite (Hs Hw'). pose proof Hc as Hc'. apply crun_done in Hc' as [?|Hge]; [congruence| |done|simpl; lia].
  apply crun_total in Hc as (_ & Hl & _); [|done|simpl; lia]. simpl in Hl. rewrite Hl in *. f_equal. lia.
Qed.

Lemma ran_turns : turns code hs (cn_log c') en.
Proof.
  destruct Hran as [x' Hc]. apply (crun_turns hs) in Hc as (l & Hl & Ht); [|done|done|simpl; lia].
  simpl in Hl. by rewrite Hl.
Qed.

End Ran.
End Top.
