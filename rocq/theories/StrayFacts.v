(** Goroutines that use a Context only while its request is served do not disturb
    other requests. *)
From Verif Require Import Base GoStr Strconv Pattern Tree TreeSpec Header Router RouterSpec Ctx CtxFacts Engine EngineSpec ServeTop
  ServeMore Machine MachineSpec MachineFacts MachineThms ExampleMachine Stray.
Local Open Scope Z_scope.

Section Facts.
Context {A V : Type}.
Variable re_find : gostr -> gostr -> option (list gostr).
Variable sniff : gostr -> gostr.
Variable parse_form : bool -> request -> gostr * bool -> gmap gostr (list gostr) * bool * gostr.
Variable code : handler A -> prog V.
Variable e : engine A.
Implicit Types (x : ctxobj A V) (c : conn V) (w : world A V) (k : ctrl V) (t p : nat) (D : list (nat * nat)).

Local Notation call := (Ctx.call sniff parse_form).
Local Notation ServeHTTP := (Engine.ServeHTTP re_find sniff parse_form code e).
Local Notation rest := (MachineFacts.rest re_find sniff parse_form code e).
Local Notation lstep := (Machine.lstep re_find sniff parse_form code e).
Local Notation tstep := (Machine.tstep re_find sniff parse_form code e).
Local Notation crowded := (Stray.crowded re_find sniff parse_form code e).

(** no goroutine was started for t *)
Definition quiet D t : Prop := forall p, (t, p) ∉ D.

Definition good D (ctx : gmap nat (ctxobj A V)) (conns : gmap nat (conn V)) t k r body : Prop :=
  match k with
  | TStart => conns !! t = Some (arrive r body)
  | TGet i => conns !! t = Some (arrive r body) /\ refusal r = inr i
  | TEnd en => exists c, conns !! t = Some c /\ (quiet D t -> exists x0 px, ServeHTTP t x0 (arrive r body) = (en, px, c))
  | _ => exists p x c, holds k = Some p /\ ctx !! p = Some x /\ conns !! t = Some c /\
           (quiet D t -> exists x0, ServeHTTP t x0 (arrive r body) = outcome_of (rest t k x c)) /\
           (running k = true -> fit x) /\ (bound k = true -> x_conn x = Some t)
  end.
Lemma good_frame D D' ctx ctx' conns conns' t k r body : (quiet D' t -> quiet D t) ->
  (forall p, holds k = Some p -> ctx' !! p = ctx !! p) -> conns' !! t = conns !! t ->
  good D ctx conns t k r body -> good D' ctx' conns' t k r body.
Proof.
  intros Hi Hc Hn. unfold good. rewrite Hn.
  destruct k; try done;
    try (intros (p' & x & c & Hh & Hx & Hcc & Hr & H); exists p', x, c; rewrite (Hc _ Hh);
         exact (conj Hh (conj Hx (conj Hcc (conj (fun q => Hr (Hi q)) H))))).
  intros (c & Hcc & H). exists c. exact (conj Hcc (fun q => H (Hi q))).
Qed.
Lemma good_held D ctx conns t k r body p : holds k = Some p -> good D ctx conns t k r body ->
  exists x c, ctx !! p = Some x /\ conns !! t = Some c /\
    (quiet D t -> exists x0, ServeHTTP t x0 (arrive r body) = outcome_of (rest t k x c)) /\
    (running k = true -> fit x) /\ (bound k = true -> x_conn x = Some t).
Proof.
  intros Hh H. destruct k; try discriminate Hh; destruct H as (p' & x & c & Hh' & H);
    assert (p' = p) as -> by congruence; exists x, c; done.
Qed.
Lemma held_good D ctx conns t k r body p x c : holds k = Some p -> ctx !! p = Some x -> conns !! t = Some c ->
  (quiet D t -> exists x0, ServeHTTP t x0 (arrive r body) = outcome_of (rest t k x c)) ->
  (running k = true -> fit x) -> (bound k = true -> x_conn x = Some t) -> good D ctx conns t k r body.
Proof. intros Hh Hx Hc H1 H2 H3. destruct k; try discriminate Hh; exists p, x, c; done. Qed.

Record inv w D : Prop := {
  j_nodup : NoDup (w_pool w);
  j_pool : forall p, p ∈ w_pool w -> is_Some (w_ctx w !! p);
  j_out : forall t k p, w_threads w !! t = Some k -> holds k = Some p -> p ∉ w_pool w;
  j_distinct : forall t t' k k' p, w_threads w !! t = Some k -> w_threads w !! t' = Some k' ->
    holds k = Some p -> holds k' = Some p -> t = t';
  j_good : forall t k, w_threads w !! t = Some k -> exists r body, w_input w !! t = Some (r, body) /\
    good D (w_ctx w) (w_conns w) t k r body;
  j_kept : forall t p, (t, p) ∈ D -> exists k, w_threads w !! t = Some k /\
    ((exists en, k = TEnd en) \/ (holds k = Some p /\ bound k = true))
}.

Lemma inv_thread D w t k' pool' ctx' c' : inv w D -> is_Some (w_threads w !! t) ->
  NoDup pool' ->
  (forall p, p ∈ pool' -> is_Some (ctx' !! p)) ->
  (forall u k p, u <> t -> w_threads w !! u = Some k -> holds k = Some p ->
     ctx' !! p = w_ctx w !! p /\ p ∉ pool' /\ holds k' <> Some p) ->
  (forall p, holds k' = Some p -> p ∉ pool') ->
  (forall r body, w_input w !! t = Some (r, body) -> good D ctx' (<[t := c']> (w_conns w)) t k' r body) ->
  (forall p, (t, p) ∈ D -> (exists en, k' = TEnd en) \/ (holds k' = Some p /\ bound k' = true)) ->
  inv (mkWorld ctx' pool' (<[t := c']> (w_conns w)) (<[t := k']> (w_threads w)) (w_input w)) D.
Proof.
  intros [I1 I2 I3 I4 I6 I7] [k0 Hk0] Hnd Hpool Hoth Hout Hgood Hkept. constructor; cbn.
  - done.
  - done.
  - intros u k p Hu Hp. destruct (decide (u = t)) as [->|Hne].
    + rewrite lookup_insert in Hu. injection Hu as <-. by apply Hout.
    + rewrite lookup_insert_ne in Hu by done. by destruct (Hoth _ _ _ Hne Hu Hp) as (_ & ? & _).
  - intros u u' k1 k2 p Hu Hu' H1 H2. destruct (decide (u = t)) as [->|Hne], (decide (u' = t)) as [->|Hne']; [done| | |].
    + rewrite lookup_insert in Hu. injection Hu as <-. rewrite lookup_insert_ne in Hu' by done.
      destruct (Hoth _ _ _ Hne' Hu' H2) as (_ & _ & ?). contradiction.
    + rewrite lookup_insert in Hu'. injection Hu' as <-. rewrite lookup_insert_ne in Hu by done.
      destruct (Hoth _ _ _ Hne Hu H1) as (_ & _ & ?). contradiction.
    + rewrite lookup_insert_ne in Hu, Hu' by done. eauto.
  - intros u k Hu. destruct (decide (u = t)) as [->|Hne].
    + rewrite lookup_insert in Hu. injection Hu as <-. destruct (I6 _ _ Hk0) as (r & body & Hin & _). exists r, body. split; [done|]. by apply Hgood.
    + rewrite lookup_insert_ne in Hu by done. destruct (I6 _ _ Hu) as (r & body & Hin & Hg). exists r, body. split; [done|].
      revert Hg. apply good_frame; [done| |by rewrite lookup_insert_ne].
      intros p Hp. by destruct (Hoth _ _ _ Hne Hu Hp) as (? & _ & _).
  - intros u p Hu. destruct (decide (u = t)) as [->|Hne].
    + rewrite lookup_insert. eexists. split; [done|]. by apply Hkept.
    + rewrite lookup_insert_ne by done. by apply I7.
Qed.

Lemma target_own D ctx conns t k r body p x j : holds k = Some p -> good D ctx conns t k r body -> ctx !! p = Some x ->
  target t k x = Some j -> j = t.
Proof.
  intros Hh Hg Hx Ht. destruct (good_held _ _ _ _ _ _ _ _ Hh Hg) as (x' & c & Hx' & _ & _ & _ & Hb).
  assert (x' = x) as -> by congruence. destruct k; try discriminate Hh; cbn in Ht; specialize (Hb eq_refl) || clear Hb; congruence.
Qed.
Lemma lstep_bound t k x c k' x' c' : lstep t k x c = Some (k', x', c') -> bound k = true -> (exists en, k' = TEnd en) \/ bound k' = true.
Proof.
  intros Hl Hb. destruct k as [|i|i p|i p|i p|p|p|p k|p q k|p k|p v k|p|en]; try discriminate Hb; cbn [Machine.lstep] in Hl; try discriminate Hl.
  - destruct (find_node _ _ _ _ _) as [n ps]. simplify_eq. by right.
  - destruct (x_end x) as [[n rt]|]; [|destruct (o_nofound _) as [|h hs]]; simplify_eq; by right.
  - destruct (ctx_WriteHeader 404 x c) as [[a|v] [y d]]; simplify_eq; [by right|left; by eexists].
  - destruct (x_index x <? x_hlen x)%nat; [destruct (x_handlers x !! x_index x) as [h|]|]; simplify_eq; by right.
  - destruct q as [|v|o f|q|b f]; try (simplify_eq; by right). destruct (call o x c) as [[a|v] [y d]]; simplify_eq; by right.
  - destruct k as [|[i|q|f] k]; [|destruct (x_written _)|..]; simplify_eq; by right.
  - destruct k as [|[i|q|f] k]; simplify_eq; try (by right). left; by eexists.
Qed.

Lemma inv_tstep D w t w' : inv w D -> tstep t w w' -> inv w' D.
Proof.
  intros I Hs. destruct Hs as [c n o c' Ht Hc Hr Hw|c i Ht Hc Hr|i p Ht Hp|i p l1 l2 Ht Hp|k p x j c k' x' c' Ht Hh Hx Hj Hc Hl|p Ht].
  - apply inv_thread; [done|by eexists|apply I|apply I| |discriminate| |].
    + intros u k p Hne Hu Hp. split_and!; [done|by eapply I|discriminate].
    + intros r body Hin. destruct (j_good _ _ I _ _ Ht) as (r' & body' & Hin' & Hg). rewrite Hin in Hin'. injection Hin' as <- <-.
      cbn in Hg. assert (c = arrive r body) as -> by congruence. exists c'. split; [by rewrite lookup_insert|]. intros _. exists newContext, None.
      unfold Engine.ServeHTTP. rewrite Hr, Hw. done.
    + intros p Hp. left. by eexists.
  - rewrite <- (insert_id (w_conns w) t c) by done.
    apply inv_thread; [done|by eexists|apply I|apply I| |discriminate| |].
    + intros u k p Hne Hu Hp. split_and!; [done|by eapply I|discriminate].
    + intros r body Hin. destruct (j_good _ _ I _ _ Ht) as (r' & body' & Hin' & Hg). rewrite Hin in Hin'. injection Hin' as <- <-.
      cbn in Hg. assert (c = arrive r body) as -> by congruence. split; [by rewrite lookup_insert|done].
    + intros p Hp. exfalso. destruct (j_kept _ _ I _ _ Hp) as (k & Hk & [[en ->]|[Hh _]]); rewrite Ht in Hk; simplify_eq.
  - destruct (j_good _ _ I _ _ Ht) as (r & body & Hin & Hc & Hr).
    rewrite <- (insert_id (w_conns w) t (arrive r body)) by done.
    apply inv_thread; [done|by eexists|apply I| | | | |].
    + intros q Hq. destruct (j_pool _ _ I _ Hq) as (x & Hx). exists x. rewrite lookup_insert_ne; [done|]. congruence.
    + intros u k q Hne Hu Hq. destruct (j_good _ _ I _ _ Hu) as (r' & body' & Hin' & Hg).
      destruct (good_held _ _ _ _ _ _ _ _ Hq Hg) as (x' & _ & Hx' & _). assert (p <> q) by congruence.
      split_and!; [by rewrite lookup_insert_ne|by eapply I|cbn; congruence].
    + intros q [= <-] Hq. destruct (j_pool _ _ I _ Hq) as (x & Hx). congruence.
    + intros r' body' Hin'. rewrite Hin in Hin'. injection Hin' as <- <-.
      eapply held_good; [reflexivity|by rewrite lookup_insert|by rewrite lookup_insert| |done|done].
      intros _. exists newContext. by apply serve_rest.
    + intros q Hq. exfalso. destruct (j_kept _ _ I _ _ Hq) as (k & Hk & [[en ->]|[Hh _]]); rewrite Ht in Hk; simplify_eq.
  - destruct (j_good _ _ I _ _ Ht) as (r & body & Hin & Hc & Hr).
    rewrite <- (insert_id (w_conns w) t (arrive r body)) by done.
    pose proof (j_nodup _ _ I) as Hnd. rewrite Hp in Hnd.
    assert (forall q, q ∈ l1 ++ l2 -> q ∈ w_pool w) as Hsub.
    { intros q Hq. rewrite Hp. apply elem_of_app. apply elem_of_app in Hq as [?|?]; [by left|right; by right]. }
    assert (p ∉ l1 ++ l2) as Hnot.
    { rewrite <- Permutation_middle in Hnd. by inversion Hnd. }
    apply inv_thread; [done|by eexists| | | | | |].
    + rewrite <- Permutation_middle in Hnd. by inversion Hnd.
    + intros q Hq. apply I. by apply Hsub.
    + intros u k q Hne Hu Hq. assert (q ∉ w_pool w) as Hout by (by eapply I).
      split_and!; [done|by intros H%Hsub|]. cbn. intros [= ->]. apply Hout. rewrite Hp. apply elem_of_app. right. left.
    + intros q [= <-]. done.
    + intros r' body' Hin'. rewrite Hin in Hin'. injection Hin' as <- <-.
      destruct (j_pool _ _ I p) as (x & Hx). { rewrite Hp. apply elem_of_app. right. left. }
      eapply held_good; [reflexivity|done|by rewrite lookup_insert| |done|done]. intros _. exists x. by apply serve_rest.
    + intros q Hq. exfalso. destruct (j_kept _ _ I _ _ Hq) as (k & Hk & [[en ->]|[Hh _]]); rewrite Ht in Hk; simplify_eq.
  - destruct (j_good _ _ I _ _ Ht) as (r & body & Hin & Hg).
    pose proof (target_own _ _ _ _ _ _ _ _ _ _ Hh Hg Hx Hj) as ->.
    destruct (good_held _ _ _ _ _ _ _ _ Hh Hg) as (x1 & c1 & Hx1 & Hc1 & Hserve & Hfit & Hb).
    assert (x1 = x) as -> by congruence. assert (c1 = c) as -> by congruence.
    destruct (lstep_kept _ _ _ _ _ _ _ _ _ _ _ _ Hfit Hb Hl) as (Hfit' & Hb' & Hh' & Hk1 & Hk2).
    pose proof (lstep_rest _ _ _ _ _ _ _ _ _ _ _ _ Hfit Hl) as Hrest.
    apply inv_thread; [done|by eexists|apply I| | | | |].
    + intros q Hq. destruct (j_pool _ _ I _ Hq) as (y & Hy). exists y. rewrite lookup_insert_ne; [done|].
      intros ->. by apply (j_out _ _ I _ _ _ Ht Hh).
    + intros u ku q Hne Hu Hq. assert (p <> q). { intros ->. apply Hne. by eapply I. }
      split_and!; [by rewrite lookup_insert_ne|by eapply I|]. destruct Hh' as [->| ->]; congruence.
    + intros q Hq. destruct Hh' as [Hh'|Hh']; [congruence|]. eapply I; [exact Ht|congruence].
    + intros r' body' Hin'. rewrite Hin in Hin'. injection Hin' as <- <-. rewrite <- Hrest in Hserve.
      destruct Hh' as [Hh'|Hh'].
      * destruct k'; try discriminate Hh'; [by destruct Hk1|by edestruct Hk2|].
        cbn [good]. exists c'. split; [by rewrite lookup_insert|]. intros Hq. destruct (Hserve Hq) as [x0 H0]. exists x0. eexists. exact H0.
      * eapply held_good; [by rewrite Hh'|by rewrite lookup_insert|by rewrite lookup_insert|done|done|done].
    + intros q Hq. destruct (j_kept _ _ I _ _ Hq) as (k1 & Hk & [[en ->]|[Hq1 Hq2]]); rewrite Ht in Hk; simplify_eq.
      destruct (lstep_bound _ _ _ _ _ _ _ Hl Hq2) as [He|Hb1]; [by left|]. right. split; [|done].
      destruct Hh' as [Hh'|Hh']; [|congruence]. destruct k'; discriminate.
  - destruct (j_good _ _ I _ _ Ht) as (r & body & Hin & Hg).
    destruct (good_held _ _ _ _ (TPut p) _ _ p eq_refl Hg) as (x1 & c1 & Hx1 & Hc1 & Hserve & Hfit & Hb).
    rewrite <- (insert_id (w_conns w) t c1) by done.
    assert (p ∉ w_pool w) as Hout by (by eapply I).
    apply inv_thread; [done|by eexists| | | |discriminate| |].
    + constructor; [done|apply I].
    + intros q Hq. apply elem_of_cons in Hq as [->|Hq]; [|by apply I]. by exists x1.
    + intros u k q Hne Hu Hq. split_and!; [done| |discriminate]. intros Hq'. apply elem_of_cons in Hq' as [->|Hq'].
      * apply Hne. by eapply I.
      * revert Hq'. by eapply I.
    + intros r' body' Hin'. rewrite Hin in Hin'. injection Hin' as <- <-.
      cbn [good]. exists c1. split; [by rewrite lookup_insert|]. intros Hq. destruct (Hserve Hq) as [x0 H0]. exists x0. eexists. exact H0.
    + intros q Hq. left. by eexists.
Qed.
Lemma inv_estep D w w' : inv w D -> estep w w' -> inv w' D.
Proof.
  intros I Hs. destruct Hs as [t r body Ht|p l1 l2 Hp].
  - constructor; cbn.
    + apply I.
    + apply I.
    + intros u k p Hu Hp. destruct (decide (u = t)) as [->|Hne].
      * rewrite lookup_insert in Hu. injection Hu as <-. discriminate Hp.
      * rewrite lookup_insert_ne in Hu by done. by eapply I.
    + intros u u' k k' p Hu Hu' Hk Hk'. destruct (decide (u = t)) as [->|Hne].
      { rewrite lookup_insert in Hu. injection Hu as <-. discriminate Hk. }
      destruct (decide (u' = t)) as [->|Hne'].
      { rewrite lookup_insert in Hu'. injection Hu' as <-. discriminate Hk'. }
      rewrite lookup_insert_ne in Hu, Hu' by done. by eapply I.
    + intros u k Hu. destruct (decide (u = t)) as [->|Hne].
      * rewrite lookup_insert in Hu. injection Hu as <-. exists r, body. rewrite lookup_insert. split; [done|]. cbn. by rewrite lookup_insert.
      * rewrite lookup_insert_ne in Hu by done. destruct (j_good _ _ I _ _ Hu) as (r' & body' & Hin & Hg). exists r', body'.
        rewrite lookup_insert_ne by done. split; [done|]. revert Hg. apply good_frame; [done|done|by rewrite lookup_insert_ne].
    + intros u p Hu. destruct (j_kept _ _ I _ _ Hu) as (k & Hk & H). exists k. split; [|done]. rewrite lookup_insert_ne; [done|]. congruence.
  - assert (forall q, q ∈ l1 ++ l2 -> q ∈ w_pool w) as Hsub.
    { intros q Hq. rewrite Hp. apply elem_of_app. apply elem_of_app in Hq as [?|?]; [by left|right; by right]. }
    constructor; cbn; try apply I.
    + pose proof (j_nodup _ _ I) as Hnd. rewrite Hp, <- Permutation_middle in Hnd. by inversion Hnd.
    + intros q Hq. apply I. by apply Hsub.
    + intros u k q Hu Hq Hin. apply Hsub in Hin. revert Hin. by eapply I.
Qed.
Lemma inv_go D w t p q (fs : list (frame V)) : inv w D -> w_threads w !! t = Some (TProg p q fs) -> inv w ((t, p) :: D).
Proof.
  intros [I1 I2 I3 I4 I6 I7] Ht. constructor; [done..| |].
  - intros u ku Hu. destruct (I6 _ _ Hu) as (r & body & Hin & Hg). exists r, body. split; [done|]. revert Hg.
    apply good_frame; [|done..]. intros Hq p' Hp'. apply (Hq p'). by right.
  - intros u p' Hin. apply elem_of_cons in Hin as [[= -> ->]|Hin]; [|by apply I7]. eexists. split; [exact Ht|]. by right.
Qed.
(** a use by a goroutine whose request has not ended *)
Lemma inv_use D w t p w' : inv w D -> (t, p) ∈ D -> ~ ended w t -> stray sniff parse_form p w w' -> inv w' D.
Proof.
  intros I Hin Hne Hs. destruct (j_kept _ _ I _ _ Hin) as (k & Hk & [[en ->]|[Hh Hb]]); [destruct Hne; by eexists|].
  destruct (j_good _ _ I _ _ Hk) as (r & body & Hi & Hg).
  destruct (good_held _ _ _ _ _ _ _ _ Hh Hg) as (x0 & c0 & Hx0 & Hc0 & _ & Hfit & Hconn). specialize (Hconn Hb).
  assert (~ quiet D t) as Hnq by (intros Hq; by apply (Hq p)).
  assert (forall x' c', (running k = true -> fit x') -> x_conn x' = Some t ->
    inv (mkWorld (<[p := x']> (w_ctx w)) (w_pool w) (<[t := c']> (w_conns w)) (w_threads w) (w_input w)) D) as Hgo.
  { intros x' c' Hf' Hc'. rewrite <- (insert_id (w_threads w) t k) by done.
    apply inv_thread; [done|by eexists|apply I| | | | |].
    - intros q Hq. destruct (j_pool _ _ I _ Hq) as (y & Hy). destruct (decide (p = q)) as [->|Hpq]; [rewrite lookup_insert|rewrite lookup_insert_ne by done]; by eexists.
    - intros u ku q Hut Hu Hq. assert (p <> q). { intros ->. apply Hut. by eapply I. }
      split_and!; [by rewrite lookup_insert_ne|by eapply I|congruence].
    - intros q Hq. by eapply I.
    - intros r' body' _. eapply held_good; [exact Hh|by rewrite lookup_insert|by rewrite lookup_insert|done|done|done].
    - intros q Hq. right. split; [|done]. destruct (j_kept _ _ I _ _ Hq) as (k1 & Hk1 & [[en ->]|[Hq1 Hq2]]); [destruct Hne; by eexists|congruence]. }
  destruct Hs as [o x j c rr x' c' Hx Hj Hc Hcall|x Hx].
  - assert (x = x0) as -> by congruence. assert (j = t) as -> by congruence.
    apply call_run in Hcall as []. apply Hgo; [|congruence]. intros Hr. specialize (Hfit Hr). unfold fit in *. congruence.
  - assert (x = x0) as -> by congruence. rewrite <- (insert_id (w_conns w) t c0) by done. apply Hgo; done.
Qed.
Lemma inv_crowded g : crowded (fun w t => ~ ended w t) g -> inv (cr_world g) (cr_kept g).
Proof.
  induction 1 as [|g t w' H IH Hs|g w' H IH Hs|g t p q k H IH Ht|g t p w' H IH Hin Hm Hs]; cbn.
  - constructor; cbn; [constructor| | | | |].
    + intros p Hp. by apply elem_of_nil in Hp.
    + intros t k p H. by rewrite lookup_empty in H.
    + intros t t' k k' p H. by rewrite lookup_empty in H.
    + intros t k H. by rewrite lookup_empty in H.
    + intros t p Hp. by apply elem_of_nil in Hp.
  - by eapply inv_tstep.
  - by eapply inv_estep.
  - by eapply inv_go.
  - by eapply inv_use.
Qed.

(** What a goroutine can reach while its request is served *)
Lemma stray_home g t p w' : crowded (fun w t => ~ ended w t) g -> (t, p) ∈ cr_kept g -> ~ ended (cr_world g) t ->
  stray sniff parse_form p (cr_world g) w' ->
  (forall u, w_threads w' !! u = w_threads (cr_world g) !! u) /\
  (forall u, u <> t -> w_conns w' !! u = w_conns (cr_world g) !! u) /\
  (forall q, q <> p -> w_ctx w' !! q = w_ctx (cr_world g) !! q) /\
  p ∉ w_pool (cr_world g) /\
  (forall u k, w_threads (cr_world g) !! u = Some k -> holds k = Some p -> u = t).
Proof.
  intros Hg Hin Hne Hs. pose proof (inv_crowded _ Hg) as I. destruct g as [w D]. cbn in *.
  destruct (j_kept _ _ I _ _ Hin) as (k & Hk & [[en ->]|[Hh Hb]]); [destruct Hne; by eexists|].
  destruct (j_good _ _ I _ _ Hk) as (r & body & Hi & Hgd).
  destruct (good_held _ _ _ _ _ _ _ _ Hh Hgd) as (x0 & c0 & Hx0 & Hc0 & _ & _ & Hconn). specialize (Hconn Hb).
  assert (forall u k, w_threads w !! u = Some k -> holds k = Some p -> u = t) as Hown by (intros u ku Hu Hq; by eapply I).
  assert (p ∉ w_pool w) by (by eapply I).
  destruct Hs as [o x j c rr x' c' Hx Hj Hc Hcall|x Hx]; cbn.
  - assert (x = x0) as -> by congruence. assert (j = t) as -> by congruence.
    split_and!; [done|intros u Hu; by rewrite lookup_insert_ne|intros q Hq; by rewrite lookup_insert_ne|done|done].
  - split_and!; [done|done|intros q Hq; by rewrite lookup_insert_ne|done|done].
Qed.
Lemma quiet_alone g u en : crowded (fun w t => ~ ended w t) g -> w_threads (cr_world g) !! u = Some (TEnd en) ->
  (forall p, (u, p) ∉ cr_kept g) ->
  exists r body x px c, w_input (cr_world g) !! u = Some (r, body) /\ w_conns (cr_world g) !! u = Some c /\
    ServeHTTP u x (arrive r body) = (en, px, c).
Proof.
  intros Hg Hu Hq. apply inv_crowded in Hg. destruct (j_good _ _ Hg _ _ Hu) as (r & body & Hin & c & Hc & H).
  destruct (H Hq) as (x0 & px & Hs). by exists r, body, x0, px, c.
Qed.

(** for examples *)
Lemma crowded_moves may g l w' : crowded may g -> moves re_find sniff parse_form code e (cr_world g) l = Some w' ->
  crowded may (mkCrowd w' (cr_kept g)).
Proof.
  revert g. induction l as [|ch l IH]; intros g Hg; cbn [moves].
  - intros [= <-]. by destruct g.
  - destruct (move _ _ _ _ _ _ ch) as [[o w1]|] eqn:Hm; [|done]. apply move_sound in Hm. intros Hl.
    apply (IH (mkCrowd w1 (cr_kept g))); [|done]. destruct o as [t|]; [by eapply cr_thread|by eapply cr_env].
Qed.
End Facts.

Section Replies.
Context {A V : Type}.
Variable re_find : gostr -> gostr -> option (list gostr).
Variable sniff : gostr -> gostr.
Variable parse_form : bool -> request -> gostr * bool -> gmap gostr (list gostr) * bool * gostr.
Variable code : handler A -> prog V.
Local Notation crowded := (Stray.crowded re_find sniff parse_form code).
Local Notation reply := (ServeMore.reply re_find sniff parse_form code).
Implicit Types (e : engine A) (c : conn V).

Lemma quiet_reply e g u en r body c : crowded e (fun w t => ~ ended w t) g ->
  w_threads (cr_world g) !! u = Some (TEnd en) -> w_input (cr_world g) !! u = Some (r, body) ->
  w_conns (cr_world g) !! u = Some c -> (forall p, (u, p) ∉ cr_kept g) ->
  (forall x x', reply e u x r body = reply e u x' r body) ->
  (en, c) = reply e u newContext r body.
Proof.
  intros Hw Ht Hin Hc Hq Hsame. destruct (quiet_alone _ _ _ _ _ _ _ _ Hw Ht Hq) as (r' & body' & x & px & c' & Hin' & Hc' & Hs).
  rewrite Hin in Hin'. injection Hin' as <- <-. assert (c' = c) as -> by congruence.
  rewrite (Hsame _ x). unfold ServeMore.reply. by rewrite Hs.
Qed.
Section Engine.
Variable re_ok : gostr -> bool.
Variables (ops : list (rop A)) (r0 : nat) (opts : list (opt A)) (e : engine A).
Hypothesis He : engine_of re_ok ops r0 opts e.
Lemma quiet_irrelevant g u en r body c : crowded e (fun w t => ~ ended w t) g ->
  w_threads (cr_world g) !! u = Some (TEnd en) -> w_input (cr_world g) !! u = Some (r, body) ->
  w_conns (cr_world g) !! u = Some c -> (forall p, (u, p) ∉ cr_kept g) ->
  (forall v, v ∈ routes e -> ~ verbatim re_ok e v r) ->
  (en, c) = reply e u newContext r body.
Proof. intros. eapply quiet_reply; [done..|]. intros. by eapply recycled_irrelevant. Qed.
Lemma quiet_static_off g u en r body c : crowded e (fun w t => ~ ended w t) g ->
  w_threads (cr_world g) !! u = Some (TEnd en) -> w_input (cr_world g) !! u = Some (r, body) ->
  w_conns (cr_world g) !! u = Some c -> (forall p, (u, p) ∉ cr_kept g) ->
  o_static (en_options e) = false ->
  (en, c) = reply e u newContext r body.
Proof. intros. eapply quiet_reply; [done..|]. intros. by eapply recycled_static_off. Qed.
Lemma quiet_param_free g u en r body c : crowded e (fun w t => ~ ended w t) g ->
  w_threads (cr_world g) !! u = Some (TEnd en) -> w_input (cr_world g) !! u = Some (r, body) ->
  w_conns (cr_world g) !! u = Some c -> (forall p, (u, p) ∉ cr_kept g) ->
  (forall v h, v ∈ routes e -> h ∈ rt_handlers v -> only param_free (code h)) ->
  (en, c) = reply e u newContext r body.
Proof. intros. eapply quiet_reply; [done..|]. intros. by eapply recycled_param_free. Qed.
End Engine.
End Replies.
