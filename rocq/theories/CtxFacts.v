(** Invariants of running a handler chain. *)
From Verif Require Import Base GoStr Strconv Pattern Tree Header Router Ctx.
Local Open Scope Z_scope.

(** [only P p]: p performs only operations satisfying P *)
Fixpoint only {V} (P : op V -> Prop) (p : prog V) : Prop :=
  match p with
  | PRet => True
  | PPanic _ => True
  | PDo o k => P o /\ forall a, only P (k a)
  | PNext k => only P k
  | PTry b k => only P b /\ forall r, only P (k r)
  end.
Lemma only_any {V} (p : prog V) : only (fun _ => True) p.
Proof. induction p; simpl; auto. Qed.
Lemma only_impl {V} (P Q : op V -> Prop) p : (forall o, P o -> Q o) -> only P p -> only Q p.
Proof.
  intros HPQ. induction p as [| |o k IH|k IH|b IHb k IH]; simpl; auto.
  - intros [??]. split; [by apply HPQ|]. intros a. auto.
  - intros [??]. split; auto.
Qed.

Section Facts.
Context {A V : Type}.
Variable sniff : gostr -> gostr.
Variable parse_form : bool -> request -> gostr * bool -> gmap gostr (list gostr) * bool * gostr.
Variable code : handler A -> prog V.
Implicit Types x : ctxobj A V.
Implicit Types c : conn V.

Local Notation call := (call sniff parse_form).
Local Notation pexec := (pexec sniff parse_form).
Local Notation crun := (crun sniff parse_form code).

Definition bump x : ctxobj A V := set_index x (S (x_index x)).

(** ** The chain stays, and the index only grows *)

(** what no operation changes *)
Record same_run x c x' c' : Prop := {
  sr_handlers : x_handlers x' = x_handlers x;
  sr_hlen : x_hlen x' = x_hlen x;
  sr_index : x_index x' = x_index x;
  sr_end : x_end x' = x_end x;
  sr_conn : x_conn x' = x_conn x;
  sr_req : cn_req c' = cn_req c
}.
Lemma same_run_refl x c : same_run x c x c. Proof. by constructor. Qed.

Lemma raw_WriteHeader_req n c o c' : raw_WriteHeader n c = (o, c') -> cn_req c' = cn_req c.
Proof.
  unfold raw_WriteHeader. cbn zeta. destruct (rw_sent _); [by intros [= <- <-]|].
  destruct (valid_code n); by intros [= <- <-].
Qed.
Lemma raw_Write_req d c : cn_req (raw_Write d c) = cn_req c.
Proof.
  unfold raw_Write. cbn zeta. destruct (rw_sent (cn_rw (log c (EvData d)))) as [[n h]|]; simpl.
  - destruct (rw_sent _) as [[n' h']|]; [|done]. destruct (body_allowed n'); done.
  - done.
Qed.
Lemma ctx_WriteHeader_run n x c o x' c' : ctx_WriteHeader n x c = (o, (x', c')) -> same_run x c x' c'.
Proof.
  unfold ctx_WriteHeader. destruct (x_written x); [intros [= <- <- <-]; apply same_run_refl|].
  destruct (raw_WriteHeader n c) as [o1 c1] eqn:Hr. intros [= <- <- <-].
  by constructor; try (apply raw_WriteHeader_req in Hr).
Qed.
Lemma same_run_trans x1 c1 x2 c2 x3 c3 : same_run x1 c1 x2 c2 -> same_run x2 c2 x3 c3 -> same_run x1 c1 x3 c3.
Proof. intros [] []. constructor; congruence. Qed.
Lemma ctx_Write_run d x c o x' c' : ctx_Write sniff d x c = (o, (x', c')) -> same_run x c x' c'.
Proof.
  unfold ctx_Write. intros H.
  match type of H with (let '(_, _) := ?y in _) = _ => destruct y as [o1 [x1 c1]] eqn:H1 end.
  assert (same_run x c x1 c1).
  { destruct (x_written x); simpl in H1; [inversion H1; subst; apply same_run_refl|].
    apply ctx_WriteHeader_run in H1. eapply same_run_trans; [|exact H1].
    constructor; try done. by destruct (_ && _). }
  destruct o1; inversion H; subst; [|done].
  eapply same_run_trans; [done|]. constructor; try done. apply raw_Write_req.
Qed.

Lemma do_op_run o x c r x' c' : do_op sniff parse_form o x c = (r, (x', c')) -> same_run x c x' c'.
Proof.
  destruct o; simpl; try (intros H; inversion H; subst; by constructor).
  - apply ctx_WriteHeader_run.
  - apply ctx_Write_run.
  - destruct (raw_WriteHeader code0 c) as [o1 c1] eqn:Hr. intros H; inversion H; subst.
    constructor; try done. by apply raw_WriteHeader_req in Hr.
  - intros H; inversion H; subst. constructor; try done. apply raw_Write_req.
  - destruct (x_end x) as [[? [rt|]]|]; intros H; inversion H; subst; by constructor.
  - destruct (x_params x); intros H; inversion H; subst; by constructor.
  - destruct (x_env x) as [m|]; [destruct (m !! name)|]; intros H; inversion H; subst; by constructor.
  - destruct (x_env x ≫= _); intros H; inversion H; subst; by constructor.
  - destruct (x_env x) as [m|]; intros H; inversion H; subst; by constructor.
  - destruct (x_parsed x); [intros H; inversion H; subst; by constructor|].
    destruct (parse_form _ _ _) as [[f ok] rest].
    destruct ok; intros H; inversion H; subst; by constructor.
Qed.

Lemma call_eq o x c r x' c' : call o x c = (r, (x', c')) ->
  exists c1, do_op sniff parse_form o x c = (r, (x', c1)) /\ c' = log c1 (EvCall o r).
Proof.
  unfold Ctx.call. destruct (do_op sniff parse_form o x c) as [r1 [x1 c1]].
  intros H. exists c1. pose proof (f_equal fst H) as H1. pose proof (f_equal snd H) as H2.
  cbn [fst snd] in H1, H2. subst r1. inversion H2. by subst.
Qed.
Lemma call_run o x c r x' c' : call o x c = (r, (x', c')) -> same_run x c x' c'.
Proof. intros H. apply call_eq in H as (c1 & Hd & ->). apply do_op_run in Hd. by destruct Hd. Qed.

(** ** Totality *)

(** enough fuel, and the chain is there *)
Definition fit x : Prop := x_hlen x = length (x_handlers x).

Lemma pexec_total (P : ctxobj A V -> Prop) next p :
  (forall o x c r x' c', P x -> call o x c = (r, (x', c')) -> P x') ->
  (forall x c r x' c', P x -> next x c = (r, (x', c')) -> P x' /\ r <> EStuck) ->
  forall x c r x' c', P x -> pexec next p x c = (r, (x', c')) -> P x' /\ r <> EStuck.
Proof.
  intros Hc Hn. induction p as [|v|o k IH|k IH|b IHb k IH]; simpl; intros x c r x' c' HP Hx.
  - by inversion Hx; subst.
  - by inversion Hx; subst.
  - destruct (call o x c) as [[a|v] [x1 c1]] eqn:H1; pose proof (Hc _ _ _ _ _ _ HP H1) as HP1.
    + by apply (IH a _ _ _ _ _ HP1 Hx).
    + by inversion Hx; subst.
  - destruct (next x c) as [r1 [x1 c1]] eqn:H1; destruct (Hn _ _ _ _ _ HP H1) as [HP1 Hr1].
    destruct r1; [|by inversion Hx; subst|done]. by apply (IH _ _ _ _ _ HP1 Hx).
  - destruct (pexec next b x c) as [r1 [x1 c1]] eqn:H1; destruct (IHb _ _ _ _ _ HP H1) as [HP1 Hr1].
    destruct r1; [by apply (IH _ _ _ _ _ _ HP1 Hx)|by apply (IH _ _ _ _ _ _ HP1 Hx)|done].
Qed.

Lemma crun_total fuel : forall x c r x' c', fit x -> (x_hlen x <= x_index x + fuel)%nat ->
  crun fuel x c = (r, (x', c')) ->
  r <> EStuck /\ x_hlen x' = x_hlen x /\ x_handlers x' = x_handlers x /\ (x_index x <= x_index x')%nat.
Proof.
  induction fuel as [|fuel IH]; intros x c r x' c' Hfit Hle Hx; simpl in Hx;
    (destruct (x_index x <? x_hlen x)%nat eqn:Hlt; [apply Nat.ltb_lt in Hlt|by inversion Hx; subst]).
  - lia.
  - destruct (x_handlers x !! x_index x) as [h|] eqn:Hh; [|by inversion Hx; subst].
    match type of Hx with context [pexec ?n _ _ _] => set (next := n) in Hx end.
    destruct (pexec next (code h) x (log c (EvStart (x_index x)))) as [r1 [x1 c1]] eqn:Hp.
    apply (pexec_total (fun y => x_hlen y = x_hlen x /\ x_handlers y = x_handlers x /\ (x_index x <= x_index y)%nat))
      in Hp as [(H1 & H2 & H3) Hr1]; [| | |done].
    + destruct r1; [|by inversion Hx; subst|done].
      simpl in Hx. destruct (x_written x1).
      * inversion Hx; subst. simpl. split_and!; [done|done|done|lia].
      * apply IH in Hx; [simpl in Hx; destruct Hx as (?&?&?&?); split_and!; [done|congruence|congruence|lia]| |simpl; lia].
        unfold fit in *. simpl. congruence.
    + intros o y cy r2 y' cy' (H1 & H2 & H3) Hc. apply call_run in Hc as []. split_and!; [congruence|congruence|lia].
    + intros y cy r2 y' cy' (H1 & H2 & H3) Hc. unfold next in Hc. apply IH in Hc.
      * simpl in Hc. destruct Hc as (?&?&?&?). split_and!; [congruence|congruence|lia|done].
      * unfold fit in *. simpl. congruence.
      * simpl. lia.
Qed.

(** ** Invariants *)

(** Two predicates on the state: [Ph] where run is about to look for the next
    handler, [Pp] while a handler runs and when run is over. *)
Record invariant (P : op V -> Prop) (Ph Pp : ctxobj A V -> conn V -> Prop) : Prop := {
  iv_stop : forall x c, Ph x c -> (x_hlen x <= x_index x)%nat -> Pp x c;
  iv_start : forall x c, Ph x c -> (x_index x < x_hlen x)%nat -> Pp x (log c (EvStart (x_index x)));
  iv_call : forall o x c r x' c', P o -> Pp x c -> call o x c = (r, (x', c')) -> Pp x' c';
  iv_next : forall x c, Pp x c -> Ph (bump x) (log c EvNext);
  iv_end : forall x c i, Pp x c ->
    if x_written x then Pp (bump x) (log c (EvEnd i)) else Ph (bump x) (log c (EvEnd i))
}.

Lemma pexec_inv (P : op V -> Prop) (Pp : ctxobj A V -> conn V -> Prop) next p :
  (forall o x c r x' c', P o -> Pp x c -> call o x c = (r, (x', c')) -> Pp x' c') -> only P p ->
  (forall x c r x' c', Pp x c -> next x c = (r, (x', c')) -> Pp x' c') ->
  forall x c r x' c', Pp x c -> pexec next p x c = (r, (x', c')) -> Pp x' c'.
Proof.
  intros Hi Hp Hn. induction p as [|v|o k IH|k IH|b IHb k IH]; simpl in Hp |- *; intros x c r x' c' HPp Hx.
  - by inversion Hx; subst.
  - by inversion Hx; subst.
  - destruct Hp as [Ho Hk]. destruct (call o x c) as [[a|v] [x1 c1]] eqn:Hc.
    + apply (IH a (Hk a) _ _ _ _ _ (Hi _ _ _ _ _ _ Ho HPp Hc) Hx).
    + inversion Hx; subst. apply (Hi _ _ _ _ _ _ Ho HPp Hc).
  - destruct (next x c) as [[| |] [x1 c1]] eqn:Hc; pose proof (Hn _ _ _ _ _ HPp Hc) as HP1.
    + by apply (IH Hp _ _ _ _ _ HP1 Hx).
    + by inversion Hx; subst.
    + by inversion Hx; subst.
  - destruct Hp as [Hb Hk]. destruct (pexec next b x c) as [[| |] [x1 c1]] eqn:Hc;
      pose proof (IHb Hb _ _ _ _ _ HPp Hc) as HP1.
    + by apply (IH _ (Hk _) _ _ _ _ _ HP1 Hx).
    + by apply (IH _ (Hk _) _ _ _ _ _ HP1 Hx).
    + by inversion Hx; subst.
Qed.

Lemma crun_inv_from P Ph Pp : invariant P Ph Pp ->
  forall fuel x c r x' c', (forall i h, (x_index x <= i)%nat -> x_handlers x !! i = Some h -> only P (code h)) ->
  fit x -> (x_hlen x <= x_index x + fuel)%nat ->
  Ph x c -> crun fuel x c = (r, (x', c')) -> Pp x' c'.
Proof.
  intros Hi. induction fuel as [|fuel IH]; intros x c r x' c' Hcode Hfit Hle HP Hx; simpl in Hx;
    (destruct (x_index x <? x_hlen x)%nat eqn:Hlt;
     [apply Nat.ltb_lt in Hlt|apply Nat.ltb_ge in Hlt; inversion Hx; subst; by apply (iv_stop _ _ _ Hi)]).
  - lia.
  - destruct (x_handlers x !! x_index x) as [h|] eqn:Hh.
    2: { apply lookup_ge_None in Hh. unfold fit in Hfit. lia. }
    match type of Hx with context [pexec ?n _ _ _] => set (next := n) in Hx end.
    destruct (pexec next (code h) x (log c (EvStart (x_index x)))) as [r1 [x1 c1]] eqn:Hp.
    set (Q := fun y (cy : conn V) => Pp y cy /\
                x_hlen y = x_hlen x /\ x_handlers y = x_handlers x /\ (x_index x <= x_index y)%nat).
    assert (HP1 : Q x1 c1).
    { revert Hp. apply (pexec_inv P Q).
      - intros o y cy r2 y' cy' Ho (Hpp & H1 & H2 & H3) Hc.
        pose proof (iv_call _ _ _ Hi _ _ _ _ _ _ Ho Hpp Hc). apply call_run in Hc as [].
        split; [done|]. split_and!; [congruence|congruence|lia].
      - by apply (Hcode (x_index x)).
      - intros y cy r2 y' cy' (Hpp & H1 & H2 & H3) Hc. unfold next in Hc.
        assert (fit (set_index y (S (x_index y)))) by (unfold fit in *; simpl; congruence).
        pose proof Hc as Hc'. apply crun_total in Hc as (_ & ? & ? & ?); [|done|simpl; lia].
        simpl in *. split; [|split_and!; [congruence|congruence|lia]].
        refine (IH _ _ _ _ _ _ _ _ (iv_next _ _ _ Hi _ _ Hpp) Hc'); simpl; [|done|lia].
        intros i h' Hge Hh'. apply (Hcode i); [lia|congruence].
      - split; [|done]. by apply (iv_start _ _ _ Hi). }
    destruct HP1 as (HP1 & H1 & H2 & H3).
    pose proof (iv_end _ _ _ Hi x1 c1 (x_index x) HP1) as He.
    destruct r1; [|by inversion Hx; subst|by inversion Hx; subst].
    simpl in Hx. destruct (x_written x1).
    + by inversion Hx; subst.
    + refine (IH _ _ _ _ _ _ _ _ He Hx); simpl.
      * intros i h' Hge Hh'. apply (Hcode i); [lia|congruence].
      * unfold fit in *. simpl. congruence.
      * lia.
Qed.
Lemma crun_inv P Ph Pp : invariant P Ph Pp ->
  forall fuel x c r x' c', (forall h, h ∈ x_handlers x -> only P (code h)) ->
  fit x -> (x_hlen x <= x_index x + fuel)%nat ->
  Ph x c -> crun fuel x c = (r, (x', c')) -> Pp x' c'.
Proof.
  intros Hi fuel x c r x' c' Hcode. apply (crun_inv_from _ _ _ Hi). intros i h _ Hh. apply Hcode.
  by eapply elem_of_list_lookup_2.
Qed.

End Facts.
