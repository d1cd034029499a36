(** Concurrent requests: ownership of contexts, and every request runs as if alone. *)
From Verif Require Import Base GoStr Strconv Pattern Tree Header Router Ctx CtxFacts Engine Machine MachineSpec.
Local Open Scope Z_scope.

Section Facts.
Context {A V : Type}.
Variable re_find : gostr -> gostr -> option (list gostr).
Variable sniff : gostr -> gostr.
Variable parse_form : bool -> request -> gostr * bool -> gmap gostr (list gostr) * bool * gostr.
Variable code : handler A -> prog V.
Variable e : engine A.
Implicit Types (x : ctxobj A V) (c : conn V) (w : world A V) (k : ctrl V) (t p : nat).

Local Notation call := (Ctx.call sniff parse_form).
Local Notation pexec := (Ctx.pexec sniff parse_form).
Local Notation crun := (Ctx.crun sniff parse_form code).
Local Notation ServeHTTP := (Engine.ServeHTTP re_find sniff parse_form code e).
Local Notation lstep := (Machine.lstep re_find sniff parse_form code e).
Local Notation tstep := (Machine.tstep re_find sniff parse_form code e).
Local Notation execution := (Machine.execution re_find sniff parse_form code e).
Local Notation reachable := (Machine.reachable re_find sniff parse_form code e).
Local Notation recycled := (MachineSpec.recycled re_find sniff parse_form code e).

(** ** The chain without fuel *)
Lemma pexec_ext (P : ctxobj A V -> Prop) n1 n2 q :
  (forall o x c r x' c', P x -> call o x c = (r, (x', c')) -> P x') ->
  (forall x c, P x -> n1 x c = n2 x c) ->
  (forall x c r x' c', P x -> n1 x c = (r, (x', c')) -> P x') ->
  forall x c, P x -> pexec n1 q x c = pexec n2 q x c /\ P (pexec n1 q x c).2.1.
Proof.
  intros Hc Hn Hp. induction q as [|v|o f IH|f IH|b IHb f IH]; intros x c HP; cbn [Ctx.pexec]; [done|done|..].
  - destruct (call o x c) as [[a|v] [x1 c1]] eqn:H1; pose proof (Hc _ _ _ _ _ _ HP H1) as HP1; [by apply IH|done].
  - rewrite <- (Hn x c HP). destruct (n1 x c) as [[| |] [x1 c1]] eqn:H1; pose proof (Hp _ _ _ _ _ HP H1) as HP1; [by apply IH|done..].
  - destruct (IHb x c HP) as [<- HP1]. destruct (pexec n1 b x c) as [[| |] [x1 c1]] eqn:H1; [by apply IH|by apply IH|done].
Qed.

Lemma crun_fuel f1 : forall f2 x c, fit x -> (x_hlen x <= x_index x + f1)%nat -> (x_hlen x <= x_index x + f2)%nat ->
  crun f1 x c = crun f2 x c.
Proof.
  induction f1 as [|f1 IH]; intros f2 x c Hfit H1 H2.
  { destruct f2; cbn [Ctx.crun]; destruct (x_index x <? x_hlen x)%nat eqn:E; [apply Nat.ltb_lt in E; lia|done|apply Nat.ltb_lt in E; lia|done]. }
  destruct f2 as [|f2]; cbn [Ctx.crun]; (destruct (x_index x <? x_hlen x)%nat eqn:E; [apply Nat.ltb_lt in E|done]); [lia|].
  destruct (x_handlers x !! x_index x) as [h|]; [|done].
  set (P := fun y : ctxobj A V => x_hlen y = x_hlen x /\ x_handlers y = x_handlers x /\ (x_index x <= x_index y)%nat).
  assert (Hfit' : forall y, P y -> fit y) by (intros y (Ha & Hb & _); unfold fit in *; by rewrite Ha, Hb).
  set (n1 := fun y d => crun f1 (set_index y (S (x_index y))) (log d EvNext)).
  set (n2 := fun y d => crun f2 (set_index y (S (x_index y))) (log d EvNext)).
  destruct (pexec_ext P n1 n2 (code h)) with (x := x) (c := log c (EvStart (x_index x))) as [Heq HP].
  - intros o y d r y' d' (Ha & Hb & Hd) Hcall. apply call_run in Hcall as []. unfold P. split_and!; [congruence|congruence|lia].
  - intros y d HP. apply IH; [by apply (Hfit' y HP)|destruct HP as (Ha & _ & Hd); cbn; lia..].
  - intros y d r y' d' HP Hr. apply crun_total in Hr as (_ & Ha & Hb & Hd); [|by apply (Hfit' y HP)|destruct HP as (Ha & _ & Hd); cbn; lia].
    destruct HP as (Ha' & Hb' & Hd'). cbn in Ha, Hb, Hd. unfold P. split_and!; [congruence|congruence|lia].
  - unfold P. split_and!; done.
  - rewrite <- Heq. destruct (pexec n1 (code h) x (log c (EvStart (x_index x)))) as [[| |] [y d]]; [|done|done].
    cbn in HP. destruct (x_written _) eqn:Ew; [done|]. apply IH; [by apply (Hfit' y HP)|destruct HP as (Ha & _ & Hd); cbn; lia..].
Qed.

(** the rest of a chain *)
Definition crunF x c : ending * (ctxobj A V * conn V) := crun (x_hlen x) x c.
Definition nx x c : ending * (ctxobj A V * conn V) := crunF (set_index x (S (x_index x))) (log c EvNext).

Lemma crunF_eq x c : fit x ->
  crunF x c =
  if (x_index x <? x_hlen x)%nat then
    match x_handlers x !! x_index x with
    | None => (EThrow (Some (L "index out of range")), (x, c))
    | Some h =>
        match pexec nx (code h) x (log c (EvStart (x_index x))) with
        | (EDone, (y, d)) =>
            let y := set_index y (S (x_index y)) in
            let d := log d (EvEnd (x_index x)) in
            if x_written y then (EDone, (y, d)) else crunF y d
        | r => r
        end
    end
  else (EDone, (x, c)).
Proof.
  intros Hfit. unfold crunF at 1. destruct (x_hlen x) as [|n] eqn:Hn; cbn [Ctx.crun]; rewrite ?Hn;
    (destruct (x_index x <? _)%nat eqn:E; [apply Nat.ltb_lt in E|done]); [lia|].
  destruct (x_handlers x !! x_index x) as [h|]; [|done].
  set (P := fun y : ctxobj A V => x_hlen y = x_hlen x /\ x_handlers y = x_handlers x /\ (x_index x <= x_index y)%nat).
  assert (Hfit' : forall y, P y -> fit y) by (intros y (Ha & Hb & _); unfold fit in *; by rewrite Ha, Hb).
  set (n1 := fun y d => crun n (set_index y (S (x_index y))) (log d EvNext)).
  destruct (pexec_ext P n1 nx (code h)) with (x := x) (c := log c (EvStart (x_index x))) as [Heq HP].
  - intros o y d r y' d' (Ha & Hb & Hd) Hcall. apply call_run in Hcall as []. unfold P. split_and!; [congruence|congruence|lia].
  - intros y d HP. apply crun_fuel; [by apply (Hfit' y HP)|destruct HP as (Ha & _ & Hd); cbn; lia..].
  - intros y d r y' d' HP Hr. apply crun_total in Hr as (_ & Ha & Hb & Hd); [|by apply (Hfit' y HP)|destruct HP as (Ha & _ & Hd); cbn; lia].
    destruct HP as (Ha' & Hb' & Hd'). cbn in Ha, Hb, Hd. unfold P. split_and!; [congruence|congruence|lia].
  - unfold P. split_and!; done.
  - rewrite <- Heq. destruct (pexec n1 (code h) x (log c (EvStart (x_index x)))) as [[| |] [y d]]; [|done|done].
    cbn in HP. cbv zeta. destruct (x_written _) eqn:Ew; [done|]. apply crun_fuel; [by apply (Hfit' y HP)|destruct HP as (Ha & _ & Hd); cbn; lia..].
Qed.
Lemma crunF_fit x c r x' c' : fit x -> crunF x c = (r, (x', c')) -> fit x' /\ r <> EStuck.
Proof.
  intros Hfit H. apply crun_total in H as (H1 & H2 & H3 & _); [|done|lia]. split; [|done]. unfold fit in *. congruence.
Qed.

(** ** What remains to be done *)
Fixpoint frames (k : list (frame V)) (r : ending * (ctxobj A V * conn V)) : ending * (ctxobj A V * conn V) :=
  match k with
  | [] => r
  | FAfter i :: k =>
      match r with
      | (EDone, (x, c)) =>
          let x := set_index x (S (x_index x)) in
          let c := log c (EvEnd i) in
          frames k (if x_written x then (EDone, (x, c)) else crunF x c)
      | r => frames k r
      end
  | FThen q :: k =>
      match r with
      | (EDone, (x, c)) => frames k (pexec nx q x c)
      | r => frames k r
      end
  | FTry f :: k =>
      match r with
      | (EDone, (x, c)) => frames k (pexec nx (f None) x c)
      | (EThrow v, (x, c)) => frames k (pexec nx (f (Some v)) x c)
      | r => frames k r
      end
  end.
Definition outcome_of (r : ending * (ctxobj A V * conn V)) : ending * option (ctxobj A V) * conn V :=
  let '(r, (x, c)) := r in (r, match r with EDone => Some x | _ => None end, c).
Definition answer404 x c : ending * (ctxobj A V * conn V) :=
  match ctx_WriteHeader 404 x c with
  | (Norm _, s) => (EDone, s)
  | (Throw v, s) => (EThrow v, s)
  end.
Definition ready x c : ending * (ctxobj A V * conn V) :=
  match x_end x with
  | None => match o_nofound (en_options e) with
            | [] => answer404 x c
            | hs => crunF (set_handlers (set_env x ∅) hs) c
            end
  | Some (n, _) => crunF (set_handlers (set_env x ∅) (e_handlers n)) c
  end.
Definition look i x c : ending * (ctxobj A V * conn V) :=
  let '(n, ps) := find_node re_find e i (rq_path (cn_req c)) (x_params x) in
  ready (set_params (set_end x n) ps) c.
Definition rest t k x c : ending * (ctxobj A V * conn V) :=
  match k with
  | TReset i _ => look i (set_conn (reset x) t) c
  | TBind i _ => look i (set_conn x t) c
  | TLookup i _ => look i x c
  | TReady _ => ready x c
  | TNotFound _ => answer404 x c
  | TLoop _ k => frames k (crunF x c)
  | TProg _ q k => frames k (pexec nx q x c)
  | TRet _ k => frames k (EDone, (x, c))
  | TPanic _ v k => frames k (EThrow v, (x, c))
  | TPut _ => (EDone, (x, c))
  | TEnd en => (en, (x, c))
  | TStart | TGet _ => (EStuck, (x, c))
  end.

(** in the chain of handlers *)
Definition running k : bool :=
  match k with TLoop _ _ | TProg _ _ _ | TRet _ _ | TPanic _ _ _ => true | _ => false end.
(** after engine.go:100 *)
Definition bound k : bool :=
  match k with TLookup _ _ | TReady _ | TNotFound _ | TLoop _ _ | TProg _ _ _ | TRet _ _ | TPanic _ _ _ | TPut _ => true | _ => false end.

Lemma lstep_rest t k x c k' x' c' : (running k = true -> fit x) -> lstep t k x c = Some (k', x', c') ->
  rest t k' x' c' = rest t k x c.
Proof.
  intros Hfit Hl. destruct k as [|i|i p|i p|i p|p|p|p k|p q k|p k|p v k|p|en]; cbn [Machine.lstep] in Hl; try discriminate Hl.
  - by simplify_eq.
  - by simplify_eq.
  - cbn. unfold look. destruct (find_node _ _ _ _ _) as [n ps]. by simplify_eq.
  - cbn. unfold ready. destruct (x_end x) as [[n rt]|] eqn:Hx; [by simplify_eq|].
    destruct (o_nofound _) as [|h hs]; by simplify_eq.
  - cbn. unfold answer404. destruct (ctx_WriteHeader 404 x c) as [[a|v] [y d]]; by simplify_eq.
  - specialize (Hfit eq_refl). cbn [rest]. rewrite (crunF_eq x c Hfit). destruct (x_index x <? x_hlen x)%nat; [|by simplify_eq].
    destruct (x_handlers x !! x_index x) as [h|]; [|by simplify_eq]. simplify_eq. cbn [rest frames].
    destruct (pexec nx (code h) x' _) as [[| |] [y d]]; done.
  - destruct q as [|v|o f|q|b f]; [by simplify_eq..| | |].
    + cbn [rest Ctx.pexec]. destruct (call o x c) as [[a|v] [y d]]; by simplify_eq.
    + simplify_eq. cbn [rest Ctx.pexec frames]. unfold nx at 2. destruct (crunF _ _) as [[| |] [y d]]; done.
    + simplify_eq. cbn [rest Ctx.pexec frames]. destruct (pexec nx b x' c') as [[| |] [y d]]; done.
  - destruct k as [|[i|q|f] k]; [by simplify_eq| |by simplify_eq..].
    cbn [rest frames]. cbv zeta in *. destruct (x_written (set_index x (S (x_index x)))) eqn:E; by simplify_eq.
  - destruct k as [|[i|q|f] k]; by simplify_eq.
Qed.

(** one step keeps what the machine relies on *)
Lemma lstep_kept t k x c k' x' c' : (running k = true -> fit x) -> (bound k = true -> x_conn x = Some t) ->
  lstep t k x c = Some (k', x', c') ->
  (running k' = true -> fit x') /\ (bound k' = true -> x_conn x' = Some t) /\ (holds k' = None \/ holds k' = holds k) /\
  (k' <> TStart /\ forall i, k' <> TGet i).
Proof.
  intros Hfit Hb Hl. destruct k as [|i|i p|i p|i p|p|p|p k|p q k|p k|p v k|p|en]; cbn [Machine.lstep] in Hl; try discriminate Hl.
  - simplify_eq. split_and!; [done|done|by right|done|done].
  - simplify_eq. split_and!; [done|done|by right|done|done].
  - destruct (find_node _ _ _ _ _) as [n ps]. simplify_eq. split_and!; [done|by apply Hb|by right|done|done].
  - destruct (x_end x) as [[n rt]|] eqn:Hx; [|destruct (o_nofound _) as [|h hs]]; simplify_eq; split_and!; try done; try (by right); by intros _; apply Hb.
  - destruct (ctx_WriteHeader 404 x c) as [[a|v] [y d]] eqn:E; simplify_eq; split_and!; try done; try (by right); try (by left).
    intros _. unfold ctx_WriteHeader in E. destruct (x_written x); [simplify_eq; by apply Hb|].
    destruct (raw_WriteHeader 404 c) as [o d]. simplify_eq. by apply Hb.
  - destruct (x_index x <? x_hlen x)%nat; [destruct (x_handlers x !! x_index x) as [h|]|]; simplify_eq; split_and!; try done; by right.
  - destruct q as [|v|o f|q|b f]; [| |clear - Hl Hfit Hb|..]; try (simplify_eq; split_and!; try done; by right).
    assert (forall r y d, call o x c = (r, (y, d)) -> fit y /\ x_conn y = Some t) as Hc.
    { intros r y d Hr. apply call_run in Hr as []. split; [specialize (Hfit eq_refl); unfold fit in *; congruence|]. specialize (Hb eq_refl). congruence. }
    destruct (call o x c) as [[a|v] [y d]] eqn:E; destruct (Hc _ _ _ eq_refl); simplify_eq; split_and!; try done; by right.
  - destruct k as [|[i|q|f] k]; [|destruct (x_written _)|..]; simplify_eq; split_and!; try done; by right.
  - destruct k as [|[i|q|f] k]; simplify_eq; split_and!; try done; (by right) || (by left).
Qed.

(** ** The invariant of worlds *)

Lemma recycled_mono inp inp' x : inp ⊆ inp' -> recycled inp x -> recycled inp' x.
Proof. intros Hi. induction 1; [constructor|]. econstructor; [done|by eapply lookup_weaken|done]. Qed.

Definition good inp (ctx : gmap nat (ctxobj A V)) (conns : gmap nat (conn V)) t k r body : Prop :=
  match k with
  | TStart => conns !! t = Some (arrive r body)
  | TGet i => conns !! t = Some (arrive r body) /\ refusal r = inr i
  | TEnd en => exists x0 px c, conns !! t = Some c /\ recycled inp x0 /\ ServeHTTP t x0 (arrive r body) = (en, px, c)
  | _ => exists p x c x0, holds k = Some p /\ ctx !! p = Some x /\ conns !! t = Some c /\ recycled inp x0 /\
           ServeHTTP t x0 (arrive r body) = outcome_of (rest t k x c) /\
           (running k = true -> fit x) /\ (bound k = true -> x_conn x = Some t)
  end.
Lemma good_frame inp inp' ctx ctx' conns conns' t k r body : inp ⊆ inp' ->
  (forall p, holds k = Some p -> ctx' !! p = ctx !! p) -> conns' !! t = conns !! t ->
  good inp ctx conns t k r body -> good inp' ctx' conns' t k r body.
Proof.
  intros Hi Hc Hn. unfold good. rewrite Hn.
  destruct k; try done;
    try (intros (p' & x & c & x0 & Hh & Hx & Hcc & Hr & H); exists p', x, c, x0; rewrite (Hc _ Hh);
         exact (conj Hh (conj Hx (conj Hcc (conj (recycled_mono _ _ _ Hi Hr) H))))).
  intros (x0 & px & c & Hcc & Hr & H). exists x0, px, c. exact (conj Hcc (conj (recycled_mono _ _ _ Hi Hr) H)).
Qed.
Lemma good_held inp ctx conns t k r body p : holds k = Some p -> good inp ctx conns t k r body ->
  exists x c x0, ctx !! p = Some x /\ conns !! t = Some c /\ recycled inp x0 /\
    ServeHTTP t x0 (arrive r body) = outcome_of (rest t k x c) /\
    (running k = true -> fit x) /\ (bound k = true -> x_conn x = Some t).
Proof.
  intros Hh H. destruct k; try discriminate Hh; destruct H as (p' & x & c & x0 & Hh' & H);
    assert (p' = p) as -> by congruence; exists x, c, x0; done.
Qed.
Lemma held_good inp ctx conns t k r body p x c x0 : holds k = Some p -> ctx !! p = Some x -> conns !! t = Some c ->
  recycled inp x0 -> ServeHTTP t x0 (arrive r body) = outcome_of (rest t k x c) ->
  (running k = true -> fit x) -> (bound k = true -> x_conn x = Some t) -> good inp ctx conns t k r body.
Proof. intros Hh Hx Hc Hr H1 H2 H3. destruct k; try discriminate Hh; exists p, x, c, x0; done. Qed.

Record inv w : Prop := {
  i_nodup : NoDup (w_pool w);
  i_pool : forall p, p ∈ w_pool w -> exists x, w_ctx w !! p = Some x /\ recycled (w_input w) x;
  i_out : forall t k p, w_threads w !! t = Some k -> holds k = Some p -> p ∉ w_pool w;
  i_distinct : forall t t' k k' p, w_threads w !! t = Some k -> w_threads w !! t' = Some k' ->
    holds k = Some p -> holds k' = Some p -> t = t';
  i_input : forall t, w_threads w !! t = None -> w_input w !! t = None;
  i_good : forall t k, w_threads w !! t = Some k -> exists r body, w_input w !! t = Some (r, body) /\
    good (w_input w) (w_ctx w) (w_conns w) t k r body
}.

(** steps of t that leave the others alone *)
Lemma inv_thread w t k' pool' ctx' c' : inv w -> is_Some (w_threads w !! t) ->
  NoDup pool' ->
  (forall p, p ∈ pool' -> exists x, ctx' !! p = Some x /\ recycled (w_input w) x) ->
  (forall u k p, u <> t -> w_threads w !! u = Some k -> holds k = Some p ->
     ctx' !! p = w_ctx w !! p /\ p ∉ pool' /\ holds k' <> Some p) ->
  (forall p, holds k' = Some p -> p ∉ pool') ->
  (forall r body, w_input w !! t = Some (r, body) -> good (w_input w) ctx' (<[t := c']> (w_conns w)) t k' r body) ->
  inv (mkWorld ctx' pool' (<[t := c']> (w_conns w)) (<[t := k']> (w_threads w)) (w_input w)).
Proof.
  intros [I1 I2 I3 I4 I5 I6] [k0 Hk0] Hnd Hpool Hoth Hout Hgood. constructor; cbn.
  - done.
  - done.
  - intros u k p Hu Hp. destruct (decide (u = t)) as [->|Hne].
    + rewrite lookup_insert in Hu. injection Hu as <-. by apply Hout.
    + rewrite lookup_insert_ne in Hu by done. by destruct (Hoth _ _ _ Hne Hu Hp) as (_ & ? & _).
  - intros u u' k1 k2 p Hu Hu' H1 H2. destruct (decide (u = t)) as [->|Hne], (decide (u' = t)) as [->|Hne']; [done| | |].
    + rewrite lookup_insert in Hu. injection Hu as <-. rewrite lookup_insert_ne in Hu' by done.
      destruct (Hoth _ _ _ Hne' Hu' H2) as (_ & _ & ?). contradiction.
    + rewrite lookup_insert in Hu'. injection Hu' as <-. rewrite lookup_insert_ne in Hu by done.
      destruct (Hoth _ _ _ Hne Hu H1) as (_ & _ & ?). contradiction.
    + rewrite lookup_insert_ne in Hu, Hu' by done. eauto.
  - intros u Hu. apply lookup_insert_None in Hu as [Hu _]. by apply I5.
  - intros u k Hu. destruct (decide (u = t)) as [->|Hne].
    + rewrite lookup_insert in Hu. injection Hu as <-. destruct (I6 _ _ Hk0) as (r & body & Hin & _). exists r, body. split; [done|]. by apply Hgood.
    + rewrite lookup_insert_ne in Hu by done. destruct (I6 _ _ Hu) as (r & body & Hin & Hg). exists r, body. split; [done|].
      revert Hg. apply good_frame; [done| |by rewrite lookup_insert_ne].
      intros p Hp. by destruct (Hoth _ _ _ Hne Hu Hp) as (? & _ & _).
Qed.

(** the connection a step works on is the goroutine's own *)
Lemma target_own inp ctx conns t k r body p x j : holds k = Some p -> good inp ctx conns t k r body -> ctx !! p = Some x ->
  target t k x = Some j -> j = t.
Proof.
  intros Hh Hg Hx Ht. destruct (good_held _ _ _ _ _ _ _ _ Hh Hg) as (x' & c & x0 & Hx' & _ & _ & _ & _ & Hb).
  assert (x' = x) as -> by congruence. destruct k; try discriminate Hh; cbn in Ht; specialize (Hb eq_refl) || clear Hb; congruence.
Qed.
Lemma serve_rest t r body i p x0 : refusal r = inr i ->
  ServeHTTP t x0 (arrive r body) = outcome_of (rest t (TReset i p) x0 (arrive r body)).
Proof.
  intros Hr. unfold Engine.ServeHTTP, setup. cbn [arrive cn_req]. rewrite Hr. cbn [rest]. unfold look. cbn [cn_req].
  destruct (find_node _ _ _ _ _) as [n ps]. unfold ready. cbn [x_end set_params set_end].
  destruct n as [[n rt]|]; [done|]. destruct (o_nofound _) as [|h hs]; done.
Qed.

Lemma inv_tstep w t w' : inv w -> tstep t w w' -> inv w'.
Proof.
  intros I Hs. destruct Hs as [c n o c' Ht Hc Hr Hw|c i Ht Hc Hr|i p Ht Hp|i p l1 l2 Ht Hp|k p x j c k' x' c' Ht Hh Hx Hj Hc Hl|p Ht].
  - apply inv_thread; [done|by eexists|apply I|apply I| |discriminate|].
    + intros u k p Hne Hu Hp. split_and!; [done|by eapply I|discriminate].
    + intros r body Hin. destruct (i_good _ I _ _ Ht) as (r' & body' & Hin' & Hg). rewrite Hin in Hin'. injection Hin' as <- <-.
      cbn in Hg. assert (c = arrive r body) as -> by congruence. exists newContext, None, c'.
      split_and!; [by rewrite lookup_insert|constructor|]. unfold Engine.ServeHTTP. rewrite Hr, Hw. done.
  - rewrite <- (insert_id (w_conns w) t c) by done.
    apply inv_thread; [done|by eexists|apply I|apply I| |discriminate|].
    + intros u k p Hne Hu Hp. split_and!; [done|by eapply I|discriminate].
    + intros r body Hin. destruct (i_good _ I _ _ Ht) as (r' & body' & Hin' & Hg). rewrite Hin in Hin'. injection Hin' as <- <-.
      cbn in Hg. assert (c = arrive r body) as -> by congruence. split; [by rewrite lookup_insert|done].
  - destruct (i_good _ I _ _ Ht) as (r & body & Hin & Hc & Hr).
    rewrite <- (insert_id (w_conns w) t (arrive r body)) by done.
    apply inv_thread; [done|by eexists|apply I| | | |].
    + intros q Hq. destruct (i_pool _ I _ Hq) as (x & Hx & ?). exists x. split; [|done]. rewrite lookup_insert_ne; [done|]. congruence.
    + intros u k q Hne Hu Hq. destruct (i_good _ I _ _ Hu) as (r' & body' & Hin' & Hg).
      destruct (good_held _ _ _ _ _ _ _ _ Hq Hg) as (x' & _ & _ & Hx' & _). assert (p <> q) by congruence.
      split_and!; [by rewrite lookup_insert_ne|by eapply I|cbn; congruence].
    + intros q [= <-] Hq. destruct (i_pool _ I _ Hq) as (x & Hx & ?). congruence.
    + intros r' body' Hin'. rewrite Hin in Hin'. injection Hin' as <- <-.
      eapply held_good with (x0 := newContext); [reflexivity|by rewrite lookup_insert|by rewrite lookup_insert|constructor|by apply serve_rest|done|done].
  - destruct (i_good _ I _ _ Ht) as (r & body & Hin & Hc & Hr).
    rewrite <- (insert_id (w_conns w) t (arrive r body)) by done.
    pose proof (i_nodup _ I) as Hnd. rewrite Hp in Hnd.
    assert (forall q, q ∈ l1 ++ l2 -> q ∈ w_pool w) as Hsub.
    { intros q Hq. rewrite Hp. apply elem_of_app. apply elem_of_app in Hq as [?|?]; [by left|right; by right]. }
    assert (p ∉ l1 ++ l2) as Hnot.
    { rewrite <- Permutation_middle in Hnd. by inversion Hnd. }
    apply inv_thread; [done|by eexists| | | | |].
    + rewrite <- Permutation_middle in Hnd. by inversion Hnd.
    + intros q Hq. apply I. by apply Hsub.
    + intros u k q Hne Hu Hq. assert (q ∉ w_pool w) as Hout by (by eapply I).
      split_and!; [done|by intros H%Hsub|]. cbn. intros [= ->]. apply Hout. rewrite Hp. apply elem_of_app. right. left.
    + intros q [= <-]. done.
    + intros r' body' Hin'. rewrite Hin in Hin'. injection Hin' as <- <-.
      destruct (i_pool _ I p) as (x & Hx & Hrc). { rewrite Hp. apply elem_of_app. right. left. }
      eapply held_good with (x0 := x); [reflexivity|done|by rewrite lookup_insert|done|by apply serve_rest|done|done].
  - destruct (i_good _ I _ _ Ht) as (r & body & Hin & Hg).
    pose proof (target_own _ _ _ _ _ _ _ _ _ _ Hh Hg Hx Hj) as ->.
    destruct (good_held _ _ _ _ _ _ _ _ Hh Hg) as (x1 & c1 & x0 & Hx1 & Hc1 & Hrc & Hserve & Hfit & Hb).
    assert (x1 = x) as -> by congruence. assert (c1 = c) as -> by congruence.
    destruct (lstep_kept _ _ _ _ _ _ _ Hfit Hb Hl) as (Hfit' & Hb' & Hh' & Hk1 & Hk2).
    pose proof (lstep_rest _ _ _ _ _ _ _ Hfit Hl) as Hrest.
    apply inv_thread; [done|by eexists|apply I| | | |].
    + intros q Hq. destruct (i_pool _ I _ Hq) as (y & Hy & ?). exists y. split; [|done]. rewrite lookup_insert_ne; [done|].
      intros ->. by apply (i_out _ I _ _ _ Ht Hh).
    + intros u ku q Hne Hu Hq. assert (p <> q). { intros ->. apply Hne. by eapply I. }
      split_and!; [by rewrite lookup_insert_ne|by eapply I|]. destruct Hh' as [->| ->]; congruence.
    + intros q Hq. destruct Hh' as [Hh'|Hh']; [congruence|]. eapply I; [exact Ht|congruence].
    + intros r' body' Hin'. rewrite Hin in Hin'. injection Hin' as <- <-. rewrite <- Hrest in Hserve.
      destruct Hh' as [Hh'|Hh'].
      * destruct k'; try discriminate Hh'; [by destruct Hk1|by edestruct Hk2|].
        cbn [good]. eexists x0, _, c'. split_and!; [by rewrite lookup_insert|done|]. exact Hserve.
      * eapply held_good with (x0 := x0); [by rewrite Hh'|by rewrite lookup_insert|by rewrite lookup_insert|done|done|done|done].
  - destruct (i_good _ I _ _ Ht) as (r & body & Hin & Hg).
    destruct (good_held _ _ _ _ (TPut p) _ _ p eq_refl Hg) as (x1 & c1 & x0 & Hx1 & Hc1 & Hrc & Hserve & Hfit & Hb).
    rewrite <- (insert_id (w_conns w) t c1) by done.
    assert (p ∉ w_pool w) as Hout by (by eapply I).
    apply inv_thread; [done|by eexists| | | |discriminate|].
    + constructor; [done|apply I].
    + intros q Hq. apply elem_of_cons in Hq as [->|Hq]; [|by apply I]. exists x1. split; [done|]. exact (rc_used _ _ _ _ _ _ t r body x0 x1 c1 Hrc Hin Hserve).
    + intros u k q Hne Hu Hq. split_and!; [done| |discriminate]. intros Hq'. apply elem_of_cons in Hq' as [->|Hq'].
      * apply Hne. by eapply I.
      * revert Hq'. by eapply I.
    + intros r' body' Hin'. rewrite Hin in Hin'. injection Hin' as <- <-.
      cbn [good]. eexists x0, _, c1. split_and!; [by rewrite lookup_insert|done|]. exact Hserve.
Qed.
Lemma inv_estep w w' : inv w -> estep w w' -> inv w'.
Proof.
  intros I Hs. destruct Hs as [t r body Ht|p l1 l2 Hp].
  - assert (w_input w ⊆ <[t:=(r, body)]> (w_input w)) as Hsub by (by apply insert_subseteq, I).
    constructor; cbn.
    + apply I.
    + intros p Hp. destruct (i_pool _ I _ Hp) as (x & ? & ?). exists x. split; [done|]. by eapply recycled_mono.
    + intros u k p Hu Hp. destruct (decide (u = t)) as [->|Hne].
      * rewrite lookup_insert in Hu. injection Hu as <-. discriminate Hp.
      * rewrite lookup_insert_ne in Hu by done. by eapply I.
    + intros u u' k k' p Hu Hu' Hk Hk'. destruct (decide (u = t)) as [->|Hne].
      { rewrite lookup_insert in Hu. injection Hu as <-. discriminate Hk. }
      destruct (decide (u' = t)) as [->|Hne'].
      { rewrite lookup_insert in Hu'. injection Hu' as <-. discriminate Hk'. }
      rewrite lookup_insert_ne in Hu, Hu' by done. by eapply I.
    + intros u Hu. apply lookup_insert_None in Hu as [Hu Hne]. rewrite lookup_insert_ne by done. by apply I.
    + intros u k Hu. destruct (decide (u = t)) as [->|Hne].
      * rewrite lookup_insert in Hu. injection Hu as <-. exists r, body. rewrite lookup_insert. split; [done|]. cbn. by rewrite lookup_insert.
      * rewrite lookup_insert_ne in Hu by done. destruct (i_good _ I _ _ Hu) as (r' & body' & Hin & Hg). exists r', body'.
        rewrite lookup_insert_ne by done. split; [done|]. revert Hg. apply good_frame; [done|done|by rewrite lookup_insert_ne].
  - assert (forall q, q ∈ l1 ++ l2 -> q ∈ w_pool w) as Hsub.
    { intros q Hq. rewrite Hp. apply elem_of_app. apply elem_of_app in Hq as [?|?]; [by left|right; by right]. }
    constructor; cbn; try apply I.
    + pose proof (i_nodup _ I) as Hnd. rewrite Hp, <- Permutation_middle in Hnd. by inversion Hnd.
    + intros q Hq. apply I. by apply Hsub.
    + intros u k q Hu Hq Hin. apply Hsub in Hin. revert Hin. by eapply I.
Qed.
Lemma inv_empty : inv empty_world.
Proof.
  constructor; cbn; [constructor| | | |done|].
  - intros p Hp. by apply elem_of_nil in Hp.
  - intros t k p H. by rewrite lookup_empty in H.
  - intros t t' k k' p H. by rewrite lookup_empty in H.
  - intros t k H. by rewrite lookup_empty in H.
Qed.
Lemma inv_execution w l w' : execution w l w' -> inv w -> inv w'.
Proof. induction 1 as [|w l w1 t w2 H IH Hs|w l w1 w2 H IH Hs]; intros I; [done|eapply inv_tstep; [by apply IH|done]|eapply inv_estep; [by apply IH|done]]. Qed.
Lemma inv_reachable w : reachable w -> inv w.
Proof. intros [l H]. eapply inv_execution; [exact H|apply inv_empty]. Qed.

(** ** Progress *)
Lemma lstep_some t k x c p : holds k = Some p -> k <> TPut p -> is_Some (lstep t k x c).
Proof.
  intros Hh Hk. destruct k as [|i|i p'|i p'|i p'|p'|p'|p' k|p' q k|p' k|p' v k|p'|en]; try discriminate Hh; cbn [Machine.lstep].
  - eauto.
  - eauto.
  - destruct (find_node _ _ _ _ _) as [n ps]. eauto.
  - destruct (x_end x) as [[n rt]|]; [eauto|]. destruct (o_nofound _); eauto.
  - destruct (ctx_WriteHeader 404 x c) as [[a|v] [y d]]; eauto.
  - destruct (x_index x <? x_hlen x)%nat; [|eauto]. destruct (x_handlers x !! x_index x); eauto.
  - destruct q as [|v|o f|q|b f]; [eauto|eauto| |eauto|eauto]. destruct (call o x c) as [[a|v] [y d]]; eauto.
  - destruct k as [|[i|q|f] k]; [eauto| |eauto|eauto]. cbv zeta. destruct (x_written _); eauto.
  - destruct k as [|[i|q|f] k]; eauto.
  - injection Hh as ->. done.
Qed.

(** goroutine t is at k, with the context x and the connection c *)
Definition view w t p k x c : Prop :=
  w_threads w !! t = Some k /\ w_conns w !! t = Some c /\ (holds k = Some p /\ w_ctx w !! p = Some x \/ exists en, k = TEnd en).
Lemma view_of w t k p : inv w -> w_threads w !! t = Some k -> holds k = Some p ->
  exists x c, view w t p k x c /\ (running k = true -> fit x) /\ (bound k = true -> x_conn x = Some t).
Proof.
  intros I Hk Hh. destruct (i_good _ I _ _ Hk) as (r & body & Hin & Hg).
  destruct (good_held _ _ _ _ _ _ _ _ Hh Hg) as (x & c & x0 & Hx & Hc & _ & _ & Hf & Hb).
  exists x, c. split; [|done]. split_and!; [done|done|by left].
Qed.
Lemma view_target w t p k x c : inv w -> view w t p k x c -> holds k = Some p -> k <> TPut p -> target t k x = Some t.
Proof.
  intros I (Hk & Hc & [[_ Hx]|[en ->]]) Hh Hne; [|discriminate Hh].
  destruct (view_of _ _ _ _ I Hk Hh) as (x' & c' & (_ & _ & [[_ Hx']|[en ->]]) & _ & Hb); [|discriminate Hh].
  assert (x' = x) as -> by congruence. destruct k; try discriminate Hh; cbn; first [done|by apply Hb].
Qed.
Lemma view_step w t p k x c k' x' c' : inv w -> view w t p k x c -> lstep t k x c = Some (k', x', c') ->
  exists w', tstep t w w' /\ view w' t p k' x' c'.
Proof.
  intros I Hv Hl. destruct (Hv) as (Hk & Hc & [[Hh Hx]|[en ->]]); [|discriminate Hl].
  assert (k <> TPut p) as Hne by (intros ->; discriminate Hl).
  pose proof (view_target _ _ _ _ _ _ I Hv Hh Hne) as Ht.
  destruct (view_of _ _ _ _ I Hk Hh) as (x1 & c1 & (_ & _ & [[_ Hx1]|[en ->]]) & Hfit & Hb); [|discriminate Hh]. assert (x1 = x) as -> by congruence.
  destruct (lstep_kept _ _ _ _ _ _ _ Hfit Hb Hl) as (_ & _ & Hh' & Hk1 & Hk2).
  eexists. split; [by eapply ts_local|]. split_and!; cbn; [apply lookup_insert..|].
  destruct Hh' as [Hh'|Hh']; [right|left; split; [congruence|apply lookup_insert]].
  destruct k'; try discriminate Hh'; [by destruct Hk1|by edestruct Hk2|by eexists].
Qed.
(** steps of others *)
Lemma view_other w t p k x c u w' : inv w -> view w t p k x c -> tstep u w w' -> u <> t -> view w' t p k x c.
Proof.
  intros I (Hk & Hc & Hh) Hs Hne.
  assert (forall ku q, holds k = Some p -> w_threads w !! u = Some ku -> holds ku = Some q -> q <> p) as Hd.
  { intros ku q Hp Hu Hq ->. apply Hne. by eapply I. }
  destruct Hs as [c0 n o c' Ht Hc0 Hr Hw|c0 i Ht Hc0 Hr|i q Ht Hq|i q l1 l2 Ht Hq|k0 q x0 j c0 k' x' c' Ht Hq Hx0 Hj Hc0 Hl|q Ht];
    (split_and!; cbn; [by rewrite lookup_insert_ne| |]).
  - by rewrite lookup_insert_ne.
  - done.
  - done.
  - done.
  - done.
  - destruct Hh as [[Hh Hx]|Hh]; [left|by right]. split; [done|]. rewrite lookup_insert_ne; [done|congruence].
  - done.
  - done.
  - destruct (i_good _ I _ _ Ht) as (r & body & Hin & Hg).
    pose proof (target_own _ _ _ _ _ _ _ _ _ _ Hq Hg Hx0 Hj) as ->. by rewrite lookup_insert_ne.
  - destruct Hh as [[Hh Hx]|Hh]; [left|by right]. split; [done|]. rewrite lookup_insert_ne; [done|by eapply Hd].
  - done.
  - done.
Qed.
Lemma view_env w t p k x c w' : view w t p k x c -> estep w w' -> view w' t p k x c.
Proof.
  intros (Hk & Hc & Hh) Hs. destruct Hs as [u r body Hu|q l1 l2 Hq]; split_and!; cbn; try done;
    (rewrite lookup_insert_ne; [done|congruence]).
Qed.
(** the goroutine's own steps *)
Lemma view_own w t p k x c w' : inv w -> view w t p k x c -> tstep t w w' ->
  (exists k' x' c', lstep t k x c = Some (k', x', c') /\ view w' t p k' x' c') \/ (k = TPut p /\ ended w' t).
Proof.
  intros I Hv Hs. destruct (Hv) as (Hk & Hc & Hh).
  destruct Hs as [c0 n o c' Ht Hc0 Hr Hw|c0 i Ht Hc0 Hr|i q Ht Hq|i q l1 l2 Ht Hq|k0 q x0 j c0 k' x' c' Ht Hq Hx0 Hj Hc0 Hl|q Ht].
  1-4: rewrite Hk in Ht; injection Ht as ->; destruct Hh as [[Hh _]|[en Hh]]; discriminate Hh.
  - rewrite Hk in Ht; injection Ht as ->. destruct Hh as [[Hh Hx]|[en ->]]; [|discriminate Hq].
    assert (q = p) as -> by congruence. assert (x0 = x) as -> by congruence.
    assert (k0 <> TPut p) as Hne by (intros ->; discriminate Hl).
    pose proof (view_target _ _ _ _ _ _ I Hv Hh Hne) as Hj'. assert (j = t) as -> by congruence. assert (c0 = c) as -> by congruence.
    left. exists k', x', c'. split; [done|].
    destruct (view_of _ _ _ _ I Hk Hh) as (x1 & c1 & (_ & _ & [[_ Hx1]|[en ->]]) & Hfit & Hb); [|discriminate Hh]. assert (x1 = x) as -> by congruence.
    destruct (lstep_kept _ _ _ _ _ _ _ Hfit Hb Hl) as (_ & _ & Hh' & Hk1 & Hk2).
    split_and!; cbn; [apply lookup_insert..|]. destruct Hh' as [Hh'|Hh']; [right|left; split; [congruence|apply lookup_insert]].
    destruct k'; try discriminate Hh'; [by destruct Hk1|by edestruct Hk2|by eexists].
  - rewrite Hk in Ht; injection Ht as ->. destruct Hh as [[Hh _]|[en Hh]]; [|discriminate Hh]. injection Hh as ->.
    right. split; [done|]. exists EDone. cbn. apply lookup_insert.
Qed.

(** several steps on a context and a connection *)
Fixpoint lsteps t (n : nat) k x c k' x' c' : Prop :=
  match n with
  | O => k' = k /\ x' = x /\ c' = c
  | S n => exists k1 x1 c1, lstep t k x c = Some (k1, x1, c1) /\ lsteps t n k1 x1 c1 k' x' c'
  end.
Lemma lsteps_trans t n m : forall k x c k1 x1 c1 k2 x2 c2, lsteps t n k x c k1 x1 c1 -> lsteps t m k1 x1 c1 k2 x2 c2 ->
  lsteps t (n + m) k x c k2 x2 c2.
Proof.
  induction n as [|n IH]; intros k x c k1 x1 c1 k2 x2 c2; cbn [lsteps Nat.add].
  - by intros (-> & -> & ->).
  - intros (k3 & x3 & c3 & Hl & H1) H2. exists k3, x3, c3. split; [done|]. by eapply IH.
Qed.
Lemma lsteps_one t k x c k' x' c' : lstep t k x c = Some (k', x', c') -> lsteps t 1 k x c k' x' c'.
Proof. intros H. exists k', x', c'. done. Qed.
Lemma lsteps_cons t n k x c k1 x1 c1 k' x' c' : lstep t k x c = Some (k1, x1, c1) -> lsteps t n k1 x1 c1 k' x' c' ->
  lsteps t (S n) k x c k' x' c'.
Proof. intros H1 H2. exists k1, x1, c1. done. Qed.
Lemma lsteps_snoc t n : forall k x c k1 x1 c1 k2 x2 c2, lsteps t n k x c k1 x1 c1 -> lstep t k1 x1 c1 = Some (k2, x2, c2) ->
  lsteps t (S n) k x c k2 x2 c2.
Proof. intros. replace (S n) with (n + 1)%nat by lia. eapply lsteps_trans; [done|]. by apply lsteps_one. Qed.
(** the steps are determined *)
Lemma lsteps_det t n : forall j k x c k1 x1 c1 k2 x2 c2, lsteps t n k x c k1 x1 c1 -> lstep t k1 x1 c1 = None ->
  lsteps t j k x c k2 x2 c2 -> (j <= n)%nat /\ (j = n -> k2 = k1).
Proof.
  induction n as [|n IH]; intros [|j] k x c k1 x1 c1 k2 x2 c2; cbn [lsteps].
  - intros (-> & -> & ->) _ (-> & _). done.
  - intros (-> & -> & ->) Hn (? & ? & ? & Hs & _). congruence.
  - intros _ _ _. split; [lia|lia].
  - intros (k3 & x3 & c3 & Hl & H1) Hn (k4 & x4 & c4 & Hl' & H2). rewrite Hl in Hl'. injection Hl' as <- <- <-.
    destruct (IH _ _ _ _ _ _ _ _ _ _ H1 Hn H2) as [Ha Hb]. split; [lia|]. intros [= ->]. by apply Hb.
Qed.

(** ** Termination *)
Definition exit p (r : ending) (fs : list (frame V)) : ctrl V :=
  match r with EDone => TRet p fs | EThrow v => TPanic p v fs | EStuck => TEnd EStuck end.

Lemma prog_steps t p (P : ctxobj A V -> Prop) q :
  (forall o x c r x' c', P x -> call o x c = (r, (x', c')) -> P x') ->
  (forall x c r x' c', P x -> nx x c = (r, (x', c')) -> P x' /\ r <> EStuck) ->
  (forall x c r x' c' fs, P x -> nx x c = (r, (x', c')) ->
     exists n, lsteps t n (TLoop p fs) (set_index x (S (x_index x))) (log c EvNext) (exit p r fs) x' c') ->
  forall x c r x' c' fs, P x -> pexec nx q x c = (r, (x', c')) ->
    (exists n, lsteps t n (TProg p q fs) x c (exit p r fs) x' c') /\ P x' /\ r <> EStuck.
Proof.
  intros Hc Hn Hl. induction q as [|v|o f IH|q IH|b IHb f IH]; intros x c r x' c' fs HP; cbn [Ctx.pexec].
  - intros [= <- <- <-]. split_and!; [exists 1%nat; by apply lsteps_one|done|done].
  - intros [= <- <- <-]. split_and!; [exists 1%nat; by apply lsteps_one|done|done].
  - destruct (call o x c) as [[a|v] [x1 c1]] eqn:H1; pose proof (Hc _ _ _ _ _ _ HP H1) as HP1.
    + intros H. destruct (IH a _ _ _ _ _ fs HP1 H) as ([n Hs] & Ha & Hb). split_and!; [|done|done].
      exists (S n). eapply lsteps_cons; [|exact Hs]. cbn [Machine.lstep]. by rewrite H1.
    + intros [= <- <- <-]. split_and!; [exists 1%nat; apply lsteps_one; cbn [Machine.lstep]; by rewrite H1|done|done].
  - destruct (nx x c) as [r1 [x1 c1]] eqn:H1; destruct (Hn _ _ _ _ _ HP H1) as [HP1 Hr1].
    destruct (Hl _ _ _ _ _ (FThen q :: fs) HP H1) as [n Hs]. destruct r1 as [|v|]; [| |done].
    + intros H. destruct (IH _ _ _ _ _ fs HP1 H) as ([m Hs'] & Ha & Hb). split_and!; [|done|done].
      exists (S (n + S m)). eapply lsteps_cons; [reflexivity|]. eapply lsteps_trans; [exact Hs|]. eapply lsteps_cons; [reflexivity|]. exact Hs'.
    + intros [= <- <- <-]. split_and!; [|done|done].
      exists (S (n + 1)). eapply lsteps_cons; [reflexivity|]. eapply lsteps_trans; [exact Hs|]. by apply lsteps_one.
  - destruct (pexec nx b x c) as [r1 [x1 c1]] eqn:H1.
    destruct (IHb _ _ _ _ _ (FTry f :: fs) HP H1) as ([n Hs] & HP1 & Hr1). destruct r1 as [|v|]; [| |done];
      intros H; destruct (IH _ _ _ _ _ _ fs HP1 H) as ([m Hs'] & Ha & Hb); (split_and!; [|done|done]);
      (exists (S (n + S m)); eapply lsteps_cons; [reflexivity|]; eapply lsteps_trans; [exact Hs|]; eapply lsteps_cons; [reflexivity|]; exact Hs').
Qed.
Lemma loop_steps t p N : forall x c r x' c' fs, fit x -> (x_hlen x <= x_index x + N)%nat -> crunF x c = (r, (x', c')) ->
  exists n, lsteps t n (TLoop p fs) x c (exit p r fs) x' c'.
Proof.
  induction N as [|N IH]; intros x c r x' c' fs Hfit HN; rewrite (crunF_eq x c Hfit).
  { destruct (x_index x <? x_hlen x)%nat eqn:E; [apply Nat.ltb_lt in E; lia|]. intros [= <- <- <-]. exists 1%nat.
    apply lsteps_one. cbn [Machine.lstep]. by rewrite E. }
  destruct (x_index x <? x_hlen x)%nat eqn:E.
  2: { intros [= <- <- <-]. exists 1%nat. apply lsteps_one. cbn [Machine.lstep]. by rewrite E. }
  destruct (x_handlers x !! x_index x) as [h|] eqn:Eh.
  2: { intros [= <- <- <-]. exists 1%nat. apply lsteps_one. cbn [Machine.lstep]. by rewrite E, Eh. }
  set (P := fun y : ctxobj A V => x_hlen y = x_hlen x /\ x_handlers y = x_handlers x /\ (x_index x <= x_index y)%nat).
  assert (Hfit' : forall y, P y -> fit y) by (intros y (Ha & Hb & _); unfold fit in *; by rewrite Ha, Hb).
  destruct (pexec nx (code h) x (log c (EvStart (x_index x)))) as [r1 [y d]] eqn:Hp.
  destruct (prog_steps t p P (code h)) with (x := x) (c := log c (EvStart (x_index x))) (r := r1) (x' := y) (c' := d) (fs := FAfter (x_index x) :: fs)
    as ([n Hs] & HP & Hr1).
  - intros o z b r2 z' b' (Ha & Hb & Hd) Hcall. apply call_run in Hcall as []. unfold P. split_and!; [congruence|congruence|lia].
  - intros z b r2 z' b' HP Hr. unfold nx, crunF in Hr. apply crun_total in Hr as (Hst & Ha & Hb & Hd); [|by apply (Hfit' z HP)|destruct HP as (Ha & _ & Hd); cbn; lia].
    destruct HP as (Ha' & Hb' & Hd'). cbn in Ha, Hb, Hd. unfold P. split_and!; [congruence|congruence|lia|done].
  - intros z b r2 z' b' fs' HP Hr. eapply IH; [by apply (Hfit' z HP)| |exact Hr]. destruct HP as (Ha & _ & Hd). cbn. lia.
  - unfold P. split_and!; done.
  - exact Hp.
  - assert (lstep t (TLoop p fs) x c = Some (TProg p (code h) (FAfter (x_index x) :: fs), x, log c (EvStart (x_index x)))) as Hl0.
    { cbn [Machine.lstep]. by rewrite E, Eh. }
    destruct r1 as [|v|]; [| |done].
    + cbv zeta. destruct (x_written (set_index y (S (x_index y)))) eqn:Ew.
      * intros [= <- <- <-]. exists (S (n + 1)). eapply lsteps_cons; [exact Hl0|]. eapply lsteps_trans; [exact Hs|].
        apply lsteps_one. cbn [Machine.lstep exit]. cbv zeta. by rewrite Ew.
      * intros H. assert (x_hlen y <= S (x_index y) + N)%nat as HN' by (destruct HP as (Ha & _ & Hd); lia).
        destruct (IH _ _ _ _ _ fs (Hfit' y HP : fit (set_index y (S (x_index y)))) HN' H) as [m Hs'].
        exists (S (n + S m)). eapply lsteps_cons; [exact Hl0|]. eapply lsteps_trans; [exact Hs|].
        eapply lsteps_cons; [|exact Hs']. cbn [Machine.lstep exit]. cbv zeta. by rewrite Ew.
    + intros [= <- <- <-]. exists (S (n + 1)). eapply lsteps_cons; [exact Hl0|]. eapply lsteps_trans; [exact Hs|]. by apply lsteps_one.
Qed.
Lemma prog_ends t p q x c fs : fit x -> exists n r x' c', lsteps t n (TProg p q fs) x c (exit p r fs) x' c' /\ fit x' /\ r <> EStuck.
Proof.
  intros Hfit. destruct (pexec nx q x c) as [r [x' c']] eqn:Hp.
  destruct (prog_steps t p fit q) with (x := x) (c := c) (r := r) (x' := x') (c' := c') (fs := fs) as ([n Hs] & H1 & H2); [..|by eauto 10].
  - intros o z b r2 z' b' Hz Hcall. apply call_run in Hcall as []. unfold fit in *. congruence.
  - intros z b r2 z' b' Hz Hr. by apply crunF_fit in Hr.
  - intros z b r2 z' b' fs' Hz Hr. eapply (loop_steps t p (x_hlen z)); [|cbn; lia|exact Hr]. done.
  - done.
  - done.
Qed.
Lemma loop_ends t p x c fs : fit x -> exists n r x' c', lsteps t n (TLoop p fs) x c (exit p r fs) x' c' /\ fit x' /\ r <> EStuck.
Proof.
  intros Hfit. destruct (crunF x c) as [r [x' c']] eqn:Hp.
  destruct (loop_steps t p (x_hlen x) x c r x' c' fs) as [n Hs]; [done|lia|done|].
  exists n, r, x', c'. by apply crunF_fit in Hp.
Qed.
(** at the end of its work on the context *)
Definition final p k : Prop := k = TPut p \/ exists en, k = TEnd en.
Definition finishes t p k x c : Prop := exists n k' x' c', lsteps t n k x c k' x' c' /\ final p k'.
Lemma finishes_after t p n k x c k1 x1 c1 : lsteps t n k x c k1 x1 c1 -> finishes t p k1 x1 c1 -> finishes t p k x c.
Proof. intros H (m & k' & x' & c' & H' & Hf). exists (n + m)%nat, k', x', c'. split; [by eapply lsteps_trans|done]. Qed.
Lemma stack_ends t p fs : forall r x c, fit x -> r <> EStuck -> finishes t p (exit p r fs) x c.
Proof.
  induction fs as [|f fs IH]; intros r x c Hfit Hr.
  - destruct r as [|v|]; [| |done]; (exists 1%nat; do 3 eexists; split; [by apply lsteps_one|]); [by left|by right; eexists].
  - assert (forall q y d, fit y -> finishes t p (TProg p q fs) y d) as Hprog.
    { intros q y d Hy. destruct (prog_ends t p q y d fs Hy) as (n & r' & x' & c' & Hs & H1 & H2). eapply finishes_after; [exact Hs|]. by apply IH. }
    assert (forall y d, fit y -> finishes t p (TLoop p fs) y d) as Hloop.
    { intros y d Hy. destruct (loop_ends t p y d fs Hy) as (n & r' & x' & c' & Hs & H1 & H2). eapply finishes_after; [exact Hs|]. by apply IH. }
    destruct r as [|v|]; [| |done]; destruct f as [i|q|f].
    + destruct (x_written (set_index x (S (x_index x)))) eqn:Ew.
      * eapply finishes_after; [apply lsteps_one; cbn [Machine.lstep exit]; cbv zeta; rewrite Ew; reflexivity|]. by apply (IH EDone).
      * eapply finishes_after; [apply lsteps_one; cbn [Machine.lstep exit]; cbv zeta; rewrite Ew; reflexivity|]. by apply Hloop.
    + eapply finishes_after; [apply lsteps_one; reflexivity|]. by apply Hprog.
    + eapply finishes_after; [apply lsteps_one; reflexivity|]. by apply Hprog.
    + eapply finishes_after; [apply lsteps_one; reflexivity|]. by apply (IH (EThrow v)).
    + eapply finishes_after; [apply lsteps_one; reflexivity|]. by apply (IH (EThrow v)).
    + eapply finishes_after; [apply lsteps_one; reflexivity|]. by apply Hprog.
Qed.
Lemma all_finish t p k x c : holds k = Some p -> (running k = true -> fit x) -> finishes t p k x c.
Proof.
  intros Hh Hfit.
  assert (forall fs y d, fit y -> finishes t p (TLoop p fs) y d) as Hloop.
  { intros fs y d Hy. destruct (loop_ends t p y d fs Hy) as (n & r' & x' & c' & Hs & H1 & H2). eapply finishes_after; [exact Hs|]. by apply stack_ends. }
  assert (forall y d, finishes t p (TReady p) y d) as Hready.
  { intros y d. destruct (x_end y) as [[n rt]|] eqn:Ey.
    - eapply finishes_after; [apply lsteps_one; cbn [Machine.lstep]; rewrite Ey; reflexivity|]. by apply Hloop.
    - destruct (o_nofound (en_options e)) as [|h hs] eqn:En.
      + eapply finishes_after; [apply lsteps_one; cbn [Machine.lstep]; rewrite Ey, En; reflexivity|].
        destruct (ctx_WriteHeader 404 y d) as [[a|v] [z b]] eqn:Ez;
          (exists 1%nat; do 3 eexists; split; [apply lsteps_one; cbn [Machine.lstep]; rewrite Ez; reflexivity|]); [by left|by right; eexists].
      + eapply finishes_after; [apply lsteps_one; cbn [Machine.lstep]; rewrite Ey, En; reflexivity|]. by apply Hloop. }
  assert (forall i y d, finishes t p (TLookup i p) y d) as Hlook.
  { intros i y d. destruct (find_node re_find e i (rq_path (cn_req d)) (x_params y)) as [n ps] eqn:En.
    eapply finishes_after; [apply lsteps_one; cbn [Machine.lstep]; rewrite En; reflexivity|]. by apply Hready. }
  destruct k as [|i|i p'|i p'|i p'|p'|p'|p' k|p' q k|p' k|p' v k|p'|en]; try discriminate Hh; injection Hh as ->.
  - eapply finishes_after; [eapply lsteps_cons; [reflexivity|]; by apply lsteps_one|]. apply Hlook.
  - eapply finishes_after; [by apply lsteps_one|]. apply Hlook.
  - apply Hlook.
  - apply Hready.
  - destruct (ctx_WriteHeader 404 x c) as [[a|v] [z b]] eqn:Ez;
      (exists 1%nat; do 3 eexists; split; [apply lsteps_one; cbn [Machine.lstep]; rewrite Ez; reflexivity|]); [by left|by right; eexists].
  - apply Hloop. by apply Hfit.
  - destruct (prog_ends t p q x c k (Hfit eq_refl)) as (n & r' & x' & c' & Hs & H1 & H2). eapply finishes_after; [exact Hs|]. by apply stack_ends.
  - apply (stack_ends t p k EDone); [by apply Hfit|done].
  - apply (stack_ends t p k (EThrow v)); [by apply Hfit|done].
  - exists 0%nat, (TPut p), x, c. split; [done|by left].
Qed.

Lemma execution_trans w l w1 l' w2 : execution w l w1 -> execution w1 l' w2 -> execution w (l ++ l') w2.
Proof.
  intros H1 H2. revert H1. induction H2 as [w1|w1 l' w2 t w3 H IH Hs|w1 l' w2 w3 H IH Hs]; intros H1; rewrite ?app_nil_r, ?(app_assoc l); [done|..].
  - eapply ex_thread; [by apply IH|done].
  - eapply ex_env; [by apply IH|done].
Qed.
Lemma execution_one w t w' : tstep t w w' -> execution w [Some t] w'.
Proof. intros H. change [Some t] with ([] ++ [Some t]). eapply ex_thread; [constructor|done]. Qed.
Lemma view_steps t p n : forall w k x c k' x' c', inv w -> view w t p k x c -> lsteps t n k x c k' x' c' ->
  exists w', execution w (replicate n (Some t)) w' /\ view w' t p k' x' c'.
Proof.
  induction n as [|n IH]; intros w k x c k' x' c' I Hv; cbn [lsteps].
  - intros (-> & -> & ->). exists w. split; [constructor|done].
  - intros (k1 & x1 & c1 & Hl & Hs). destruct (view_step _ _ _ _ _ _ _ _ _ I Hv Hl) as (w1 & Hw1 & Hv1).
    destruct (IH w1 k1 x1 c1 k' x' c') as (w' & Hex & Hv'); [by eapply inv_tstep|done|done|].
    exists w'. split; [|done]. change (replicate (S n) (Some t)) with ([Some t] ++ replicate n (Some t)).
    eapply execution_trans; [by apply execution_one|done].
Qed.

(** a goroutine can finish whatever the others do, without them *)
Lemma held_alone w t k p : inv w -> w_threads w !! t = Some k -> holds k = Some p ->
  exists n w', execution w (replicate n (Some t)) w' /\ ended w' t.
Proof.
  intros I Hk Hh. destruct (view_of _ _ _ _ I Hk Hh) as (x & c & Hv & Hfit & _).
  destruct (all_finish t p k x c Hh Hfit) as (n & k' & x' & c' & Hs & Hf).
  destruct (view_steps _ _ _ _ _ _ _ _ _ _ I Hv Hs) as (w' & Hex & (Hk' & _ & _)).
  destruct Hf as [->|[en ->]]; [|exists n, w'; split; [done|by exists en]].
  eexists (n + 1)%nat, _. split.
  - rewrite replicate_add. eapply execution_trans; [exact Hex|]. apply execution_one. by apply ts_put.
  - exists EDone. cbn. apply lookup_insert.
Qed.
Lemma finish_alone w t : inv w -> is_Some (w_threads w !! t) -> exists n w', execution w (replicate n (Some t)) w' /\ ended w' t.
Proof.
  intros I [k Hk]. destruct (i_good _ I _ _ Hk) as (r & body & Hin & Hg).
  assert (forall w i, inv w -> w_threads w !! t = Some (TGet i) -> exists n w', execution w (replicate n (Some t)) w' /\ ended w' t) as Hget.
  { intros w1 i I1 Hk1. set (q := fresh (dom (w_ctx w1))).
    assert (w_ctx w1 !! q = None) as Hq by (apply not_elem_of_dom; apply is_fresh).
    pose proof (ts_new re_find sniff parse_form code e t w1 i q Hk1 Hq) as Hs.
    destruct (held_alone _ t (TReset i q) q (inv_tstep _ _ _ I1 Hs)) as (n & w' & Hex & He); [cbn; apply lookup_insert|done|].
    exists (S n), w'. split; [|done]. change (replicate (S n) (Some t)) with ([Some t] ++ replicate n (Some t)).
    eapply execution_trans; [by apply execution_one|done]. }
  destruct (holds k) as [p|] eqn:Hh; [by eapply held_alone|].
  destruct k as [|i|i p|i p|i p|p|p|p k|p q k|p k|p v k|p|en]; try discriminate Hh.
  - cbn in Hg. destruct (refusal r) as [n|i] eqn:Hr.
    + destruct (raw_WriteHeader (V:=V) n (arrive r body)) as [o c'] eqn:Hw.
      eexists 1%nat, _. split; [apply execution_one; eapply ts_refused; [done|exact Hg|exact Hr|exact Hw]|].
      eexists. cbn. apply lookup_insert.
    + pose proof (ts_accepted re_find sniff parse_form code e t w _ i Hk Hg Hr) as Hs.
      destruct (Hget _ i (inv_tstep _ _ _ I Hs)) as (n & w' & Hex & He); [cbn; apply lookup_insert|].
      exists (S n), w'. split; [|done]. change (replicate (S n) (Some t)) with ([Some t] ++ replicate n (Some t)).
      eapply execution_trans; [by apply execution_one|done].
  - by eapply Hget.
  - exists 0%nat, w. split; [constructor|by exists en].
Qed.

(** and it makes a number of steps that the others do not influence *)
Lemma turns_snoc t l o : turns t (l ++ [o]) = (turns t l + if decide (o = Some t) then 1 else 0)%nat.
Proof.
  unfold turns. rewrite List.filter_app, app_length. cbn [List.filter]. destruct (decide (o = Some t)) as [->|Hne].
  - rewrite bool_decide_eq_true_2 by done. done.
  - rewrite bool_decide_eq_false_2 by done. done.
Qed.
Lemma ended_stays w u w' t : ended w t -> tstep u w w' -> ended w' t /\ u <> t.
Proof.
  intros [en He] Hs. assert (u <> t) as Hne.
  { intros ->. destruct Hs as [c0 n o c' Ht Hc0 Hr Hw|c0 i Ht Hc0 Hr|i q Ht Hq|i q l1 l2 Ht Hq|k0 q x0 j c0 k' x' c' Ht Hq Hx0 Hj Hc0 Hl|q Ht];
      rewrite He in Ht; try discriminate Ht. injection Ht as <-. discriminate Hq. }
  split; [|done]. exists en. destruct Hs; cbn; rewrite ?lookup_insert_ne by done; done.
Qed.
Lemma ended_env w w' t : ended w t -> estep w w' -> ended w' t.
Proof. intros [en He] Hs. exists en. destruct Hs; cbn; [rewrite lookup_insert_ne; [done|congruence]|done]. Qed.
Lemma steps_bounded w t k p : inv w -> w_threads w !! t = Some k -> holds k = Some p ->
  exists n, forall l w', execution w l w' -> (turns t l <= n)%nat /\ (turns t l = n <-> ended w' t).
Proof.
  intros I Hk Hh. destruct (view_of _ _ _ _ I Hk Hh) as (x & c & Hv & Hfit & _).
  destruct (all_finish t p k x c Hh Hfit) as (n & kn & xn & cn & Hs & Hf).
  assert (lstep t kn xn cn = None) as Hlast by (destruct Hf as [->|[en ->]]; done).
  assert (forall l w', execution w l w' ->
    (exists k' x' c', lsteps t (turns t l) k x c k' x' c' /\ view w' t p k' x' c') \/
    (exists j, turns t l = S j /\ kn = TPut p /\ j = n /\ ended w' t)) as Hall.
  { intros l w' Hex. remember w as w0 eqn:Ew0. induction Hex as [w1|w1 l w2 u w3 Hex IH Hst|w1 l w2 w3 Hex IH Hst]; subst w1.
    - left. exists k, x, c. done.
    - destruct (IH eq_refl I Hk Hv) as [(k' & x' & c' & H1 & Hv')|(j & Hj & Hkn & Hjn & He)].
      + assert (inv w2) as I2 by (by eapply inv_execution).
        generalize (turns_snoc t l (Some u)). generalize (turns t (l ++ [Some u])). intros m ->. destruct (decide (u = t)) as [->|Hne].
        * rewrite decide_True, Nat.add_1_r by done. destruct (view_own _ _ _ _ _ _ _ I2 Hv' Hst) as [(k2 & x2 & c2 & Hl & Hv2)|[-> He]].
          -- left. exists k2, x2, c2. split; [by eapply lsteps_snoc|done].
          -- right. exists (turns t l).
             destruct (lsteps_det _ _ _ _ _ _ _ _ _ _ _ _ H1 eq_refl Hs) as [Hle Heq].
             destruct (lsteps_det _ _ _ _ _ _ _ _ _ _ _ _ Hs Hlast H1) as [Hle' _].
             assert (n = turns t l) as Hn by lia. split_and!; [done|by apply Heq|done|done].
        * rewrite decide_False, Nat.add_0_r by congruence. left. exists k', x', c'. split; [done|]. by eapply view_other.
      + destruct (ended_stays _ _ _ _ He Hst) as [He' Hne]. right. exists j.
        split_and!; [rewrite turns_snoc, decide_False by congruence; lia|done|done|done].
    - generalize (turns_snoc t l None). generalize (turns t (l ++ [None])). intros m ->. rewrite decide_False by done. rewrite Nat.add_0_r.
      destruct (IH eq_refl I Hk Hv) as [(k' & x' & c' & H1 & Hv')|(j & Hj & Hkn & Hjn & He)].
      + left. exists k', x', c'. split; [done|by eapply view_env].
      + right. exists j. split_and!; [done|done|done|by eapply ended_env]. }
  exists (match kn with TPut _ => S n | _ => n end). intros l w' Hex.
  destruct (Hall _ _ Hex) as [(k' & x' & c' & H1 & (Hk' & _ & Hh'))|(j & Hj & -> & -> & He)].
  - destruct (lsteps_det _ _ _ _ _ _ _ _ _ _ _ _ Hs Hlast H1) as [Hle Heq].
    destruct Hf as [->|[en ->]].
    + split; [lia|]. split; [lia|]. intros [en He]. rewrite Hk' in He. injection He as ->.
      destruct (lsteps_det _ _ _ _ _ _ _ _ _ _ _ _ H1 eq_refl Hs) as [Hle2 Heq2]. assert (n = turns t l) as Hn by lia.
      specialize (Heq2 Hn). discriminate Heq2.
    + split; [done|]. split.
      * intros Hn. rewrite (Heq Hn) in Hk'. by exists en.
      * intros [en' He]. rewrite Hk' in He. injection He as ->.
        destruct (lsteps_det _ _ _ _ _ _ _ _ _ _ _ _ H1 eq_refl Hs) as [Hle2 _]. lia.
  - split; [lia|]. split; [done|lia].
Qed.
End Facts.
