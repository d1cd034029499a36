(** Concurrent requests: the facts as they are used. *)
From Verif Require Import Base GoStr Strconv Pattern Tree TreeSpec Header Router RouterSpec Ctx CtxFacts Engine EngineSpec ServeTop
  ServeMore Machine MachineSpec MachineFacts.
Local Open Scope Z_scope.

Section Thms.
Context {A V : Type}.
Variable re_find : gostr -> gostr -> option (list gostr).
Variable sniff : gostr -> gostr.
Variable parse_form : bool -> request -> gostr * bool -> gmap gostr (list gostr) * bool * gostr.
Variable code : handler A -> prog V.
Implicit Types (e : engine A) (x : ctxobj A V) (c : conn V) (w : world A V) (k : ctrl V) (t p : nat).

Local Notation ServeHTTP := (Engine.ServeHTTP re_find sniff parse_form code).
Local Notation tstep := (Machine.tstep re_find sniff parse_form code).
Local Notation execution := (Machine.execution re_find sniff parse_form code).
Local Notation reachable := (Machine.reachable re_find sniff parse_form code).
Local Notation recycled := (MachineSpec.recycled re_find sniff parse_form code).
Local Notation reply := (ServeMore.reply re_find sniff parse_form code).

Lemma own_context e w : reachable e w ->
  NoDup (w_pool w) /\
  (forall t k p, w_threads w !! t = Some k -> holds k = Some p -> p ∉ w_pool w) /\
  (forall t t' k k' p, w_threads w !! t = Some k -> w_threads w !! t' = Some k' -> holds k = Some p -> holds k' = Some p -> t = t').
Proof. intros H. apply inv_reachable in H. split_and!; apply H. Qed.

Lemma own_steps e w t w' : reachable e w -> tstep e t w w' ->
  (forall u, u <> t -> w_conns w' !! u = w_conns w !! u /\ w_threads w' !! u = w_threads w !! u) /\
  (forall p, w_ctx w' !! p = w_ctx w !! p \/
     (exists k, w_threads w !! t = Some k /\ holds k = Some p) \/
     (w_ctx w !! p = None /\ w_ctx w' !! p = Some newContext)).
Proof.
  intros I Hs. apply inv_reachable in I.
  destruct Hs as [c0 n o c' Ht Hc0 Hr Hw|c0 i Ht Hc0 Hr|i q Ht Hq|i q l1 l2 Ht Hq|k0 q x0 j c0 k' x' c' Ht Hq Hx0 Hj Hc0 Hl|q Ht]; cbn.
  - split; [intros u Hu; by rewrite !lookup_insert_ne|by left].
  - split; [intros u Hu; by rewrite !lookup_insert_ne|by left].
  - split; [intros u Hu; by rewrite !lookup_insert_ne|]. intros p. destruct (decide (q = p)) as [->|Hne].
    + right. right. by rewrite lookup_insert.
    + left. by rewrite lookup_insert_ne.
  - split; [intros u Hu; by rewrite !lookup_insert_ne|by left].
  - destruct (i_good _ _ _ _ _ _ I _ _ Ht) as (r & body & Hin & Hg).
    pose proof (target_own _ _ _ _ _ _ _ _ _ _ _ _ _ _ _ Hq Hg Hx0 Hj) as ->.
    split; [intros u Hu; by rewrite !lookup_insert_ne|]. intros p. destruct (decide (q = p)) as [->|Hne].
    + right. left. by exists k0.
    + left. by rewrite lookup_insert_ne.
  - split; [intros u Hu; by rewrite !lookup_insert_ne|by left].
Qed.

Lemma as_if_alone e w t en : reachable e w -> w_threads w !! t = Some (TEnd en) ->
  exists r body x px c, w_input w !! t = Some (r, body) /\ w_conns w !! t = Some c /\ recycled e (w_input w) x /\
    ServeHTTP e t x (arrive r body) = (en, px, c).
Proof.
  intros I Ht. apply inv_reachable in I. destruct (i_good _ _ _ _ _ _ I _ _ Ht) as (r & body & Hin & x0 & px & c & H).
  exists r, body, x0, px, c. split_and!; [done|apply H..].
Qed.
Lemma same_reply e w t en r body c : reachable e w -> w_threads w !! t = Some (TEnd en) -> w_input w !! t = Some (r, body) ->
  w_conns w !! t = Some c -> (forall x x', reply e t x r body = reply e t x' r body) ->
  (en, c) = reply e t newContext r body.
Proof.
  intros Hw Ht Hin Hc Hsame. destruct (as_if_alone _ _ _ _ Hw Ht) as (r' & body' & x & px & c' & Hin' & Hc' & _ & Hs).
  rewrite Hin in Hin'. injection Hin' as <- <-. assert (c' = c) as -> by congruence.
  rewrite (Hsame _ x). unfold ServeMore.reply. by rewrite Hs.
Qed.

Section Engine.
Variable re_ok : gostr -> bool.
Variables (ops : list (rop A)) (r0 : nat) (opts : list (opt A)) (e : engine A).
Hypothesis He : engine_of re_ok ops r0 opts e.
Lemma conc_irrelevant w t en r body c : reachable e w -> w_threads w !! t = Some (TEnd en) -> w_input w !! t = Some (r, body) ->
  w_conns w !! t = Some c -> (forall v, v ∈ routes e -> ~ verbatim re_ok e v r) ->
  (en, c) = reply e t newContext r body.
Proof. intros. eapply same_reply; [done..|]. intros. by eapply recycled_irrelevant. Qed.
Lemma conc_static_off w t en r body c : reachable e w -> w_threads w !! t = Some (TEnd en) -> w_input w !! t = Some (r, body) ->
  w_conns w !! t = Some c -> o_static (en_options e) = false ->
  (en, c) = reply e t newContext r body.
Proof. intros. eapply same_reply; [done..|]. intros. by eapply recycled_static_off. Qed.
Lemma conc_param_free w t en r body c : reachable e w -> w_threads w !! t = Some (TEnd en) -> w_input w !! t = Some (r, body) ->
  w_conns w !! t = Some c -> (forall v h, v ∈ routes e -> h ∈ rt_handlers v -> only param_free (code h)) ->
  (en, c) = reply e t newContext r body.
Proof. intros. eapply same_reply; [done..|]. intros. by eapply recycled_param_free. Qed.
End Engine.

Lemma alone_finishes e w t : reachable e w -> is_Some (w_threads w !! t) ->
  exists n w', execution e w (replicate n (Some t)) w' /\ ended w' t.
Proof. intros H. apply finish_alone. by apply inv_reachable. Qed.
Lemma turns_fixed e w t k p : reachable e w -> w_threads w !! t = Some k -> holds k = Some p ->
  exists n, forall l w', execution e w l w' -> (turns t l <= n)%nat /\ (turns t l = n <-> ended w' t).
Proof. intros H. apply steps_bounded. by apply inv_reachable. Qed.
End Thms.
