(** The chain in a context while its request is served. *)
From Verif Require Import Base GoStr Strconv Pattern Tree GoStrFacts TreeSpec Header Router RouterSpec HandlerFacts RouterProps Ctx CtxFacts
  Engine TraceSpec EngineSpec ServeTop ServeDispatch ParamSpec PickSpec PickFacts Machine MachineSpec MachineFacts HandlerName.

Section Facts.
Context {A V : Type}.
Variable re_find : gostr -> gostr -> option (list gostr).
Variable sniff : gostr -> gostr.
Variable parse_form : bool -> request -> gostr * bool -> gmap gostr (list gostr) * bool * gostr.
Variable code : handler A -> prog V.
Variable e : engine A.
Implicit Types (x : ctxobj A V) (c : conn V) (w : world A V) (k : ctrl V) (t p : nat).

Local Notation lstep := (Machine.lstep re_find sniff parse_form code e).
Local Notation tstep := (Machine.tstep re_find sniff parse_form code e).
Local Notation execution := (Machine.execution re_find sniff parse_form code e).
Local Notation reachable := (Machine.reachable re_find sniff parse_form code e).
Local Notation inv := (MachineFacts.inv re_find sniff parse_form code e).
Local Notation find_node := (find_node re_find e).

(** where goroutine t is with the request r, and what its context holds *)
Definition stage k x r i : Prop :=
  match k with
  | TReset j _ | TBind j _ | TLookup j _ => j = i
  | TReady _ => exists old, x_end x = (find_node i (rq_path r) old).1
  | TLoop _ _ | TProg _ _ _ | TRet _ _ | TPanic _ _ _ => exists old,
      x_handlers x = taken e (find_node i (rq_path r) old).1 /\ x_hlen x = length (x_handlers x) /\
      ((find_node i (rq_path r) old).1 = None -> o_nofound (en_options e) <> [])
  | _ => True
  end.
Lemma lstep_stage t k x c k' x' c' r i : cn_req c = r -> lstep t k x c = Some (k', x', c') ->
  stage k x r i -> stage k' x' r i /\ cn_req c' = r.
Proof.
  intros Hr Hl Hs. destruct k as [|j|j p|j p|j p|p|p|p k|p q k|p k|p v k|p|en]; cbn [Machine.lstep] in Hl; try discriminate Hl.
  - simplify_eq. done.
  - simplify_eq. done.
  - destruct (Engine.find_node re_find e j (rq_path (cn_req c)) (x_params x)) as [n ps] eqn:E. simplify_eq. split; [|done].
    cbn in Hs. subst j. exists (x_params x). cbn. by rewrite E.
  - destruct Hs as [old Hs]. destruct (x_end x) as [[n rt]|] eqn:Hx.
    + simplify_eq. split; [|done]. exists old. cbn. by rewrite <- Hs.
    + destruct (o_nofound (en_options e)) as [|h hs] eqn:Hn; simplify_eq; [done|]. split; [|done]. exists old. cbn. rewrite <- Hs. cbn [taken].
      rewrite Hn. done.
  - destruct (ctx_WriteHeader 404 x c) as [[a|v] [y d]] eqn:E; simplify_eq; (split; [done|]);
      apply ctx_WriteHeader_run in E as []; congruence.
  - destruct (x_index x <? x_hlen x)%nat; [destruct (x_handlers x !! x_index x) as [h|]|]; simplify_eq; done.
  - destruct q as [|v|o f|q|b f]; [by simplify_eq..| |by simplify_eq|by simplify_eq].
    destruct (call sniff parse_form o x c) as [[a|v] [y d]] eqn:E; simplify_eq; apply call_run in E as [];
      (split; [|congruence]); destruct Hs as (old & H1 & H2 & H3); exists old; split_and!; [congruence|congruence|done|congruence|congruence|done].
  - destruct k as [|[j|q|f] k]; [|cbv zeta in Hl; destruct (x_written _)|..]; simplify_eq; done.
  - destruct k as [|[j|q|f] k]; simplify_eq; done.
Qed.

Definition staged w : Prop := forall t k r body, w_threads w !! t = Some k -> w_input w !! t = Some (r, body) ->
  (forall c, w_conns w !! t = Some c -> cn_req c = r) /\
  (forall p x, holds k = Some p -> w_ctx w !! p = Some x -> exists i, refusal r = inr i /\ stage k x r i).

Lemma staged_tstep w t w' : inv w -> staged w -> tstep t w w' -> staged w'.
Proof.
  intros I S Hs.
  assert (forall u k r body, u <> t -> w_threads w' !! u = Some k -> w_input w' !! u = Some (r, body) ->
     (forall c, w_conns w' !! u = Some c -> cn_req c = r) /\
     (forall p x, holds k = Some p -> w_ctx w' !! p = Some x -> exists i, refusal r = inr i /\ stage k x r i)) as Hoth.
  { intros u k r body Hne Hk Hin.
    destruct Hs as [c n o c' Ht Hc Hr Hw|c i Ht Hc Hr|i p Ht Hp|i p l1 l2 Ht Hp|k1 p x j c k' x' c' Ht Hh Hx Hj Hc Hl|p Ht];
      cbn in *; rewrite lookup_insert_ne in Hk by done; destruct (S u k r body Hk Hin) as [S1 S2].
    - split; [|done]. intros d Hd. rewrite lookup_insert_ne in Hd by done. by apply S1.
    - done.
    - split; [done|]. intros q y Hq Hy. destruct (decide (p = q)) as [->|Hpq].
      + destruct (i_good _ _ _ _ _ _ I _ _ Hk) as (r' & body' & _ & Hg).
        destruct (good_held _ _ _ _ _ _ _ _ _ _ _ _ _ Hq Hg) as (z & _ & _ & Hz & _). congruence.
      + rewrite lookup_insert_ne in Hy by done. by apply (S2 q y).
    - done.
    - destruct (i_good _ _ _ _ _ _ I _ _ Ht) as (r' & body' & _ & Hg).
      pose proof (target_own _ _ _ _ _ _ _ _ _ _ _ _ _ _ _ Hh Hg Hx Hj) as ->.
      split.
      + intros d Hd. rewrite lookup_insert_ne in Hd by done. by apply S1.
      + intros q y Hq Hy. assert (p <> q). { intros ->. apply Hne. by eapply (i_distinct _ _ _ _ _ _ I). }
        rewrite lookup_insert_ne in Hy by done. by apply (S2 q y).
    - done. }
  intros u k r body Hk Hin. destruct (decide (u = t)) as [->|Hne]; [|by eapply Hoth].
  clear Hoth.
  destruct Hs as [c n o c' Ht Hc Hr Hw|c i Ht Hc Hr|i p Ht Hp|i p l1 l2 Ht Hp|k1 p x j c k' x' c' Ht Hh Hx Hj Hc Hl|p Ht];
    cbn in *; rewrite lookup_insert in Hk; injection Hk as <-; destruct (S t _ r body Ht Hin) as [S1 S2].
  - split; [|done]. intros d Hd. rewrite lookup_insert in Hd. injection Hd as <-. rewrite <- (S1 _ Hc).
    by apply raw_WriteHeader_req in Hw.
  - done.
  - destruct (i_good _ _ _ _ _ _ I _ _ Ht) as (r' & body' & Hin' & _ & Hr). rewrite Hin in Hin'. injection Hin' as <- <-.
    split; [done|]. intros q y _ _. by exists i.
  - destruct (i_good _ _ _ _ _ _ I _ _ Ht) as (r' & body' & Hin' & _ & Hr). rewrite Hin in Hin'. injection Hin' as <- <-.
    split; [done|]. intros q y _ _. by exists i.
  - destruct (i_good _ _ _ _ _ _ I _ _ Ht) as (r' & body' & _ & Hg).
    pose proof (target_own _ _ _ _ _ _ _ _ _ _ _ _ _ _ _ Hh Hg Hx Hj) as ->.
    destruct (S2 p x Hh Hx) as (i & Hi & Hst).
    destruct (lstep_stage _ _ _ _ _ _ _ _ _ (S1 _ Hc) Hl Hst) as [Hst' Hr'].
    destruct (good_held _ _ _ _ _ _ _ _ _ _ _ _ _ Hh Hg) as (x1 & c1 & x0 & Hx1 & Hc1 & _ & _ & Hfit & Hb).
    assert (x1 = x) as -> by congruence.
    destruct (lstep_kept _ _ _ _ _ _ _ _ _ _ _ _ Hfit Hb Hl) as (_ & _ & Hh' & _).
    split.
    + intros d Hd. rewrite lookup_insert in Hd. by injection Hd as <-.
    + intros q y Hq Hy. destruct Hh' as [Hh'|Hh']; [congruence|]. assert (q = p) as -> by congruence.
      rewrite lookup_insert in Hy. injection Hy as <-. by exists i.
  - done.
Qed.
Lemma staged_estep w w' : inv w -> staged w -> estep w w' -> staged w'.
Proof.
  intros I S Hs. destruct Hs as [t r body Ht|p l1 l2 Hp]; [|done].
  intros u k r' body' Hk Hin. cbn in *. destruct (decide (u = t)) as [->|Hne].
  - rewrite lookup_insert in Hk. rewrite lookup_insert in Hin. injection Hk as <-. injection Hin as <- <-. split; [|done].
    intros c Hc. rewrite lookup_insert in Hc. by injection Hc as <-.
  - rewrite lookup_insert_ne in Hk by done. rewrite lookup_insert_ne in Hin by done. rewrite lookup_insert_ne by done. by apply (S u k r' body').
Qed.
Lemma staged_reachable w : reachable w -> staged w.
Proof.
  intros [l H]. revert H. generalize (eq_refl (@empty_world A V)). generalize (@empty_world A V) at 1 3. intros w0 H0 H.
  induction H as [w0|w0 l w1 t w2 H IH Hs|w0 l w1 w2 H IH Hs].
  - subst. intros t k r body Hk. cbn in Hk. by rewrite lookup_empty in Hk.
  - subst. eapply staged_tstep; [|by apply IH|done]. apply inv_reachable. by exists l.
  - subst. eapply staged_estep; [|by apply IH|done]. apply inv_reachable. by exists l.
Qed.

(** ** HandlerName *)
Variable re_ok : gostr -> bool.
Variable kind : A -> fkind.
Variable fname : A -> gostr.
Local Notation nameOfFunction := (nameOfFunction kind fname).
Local Notation HandlerName := (HandlerName (V:=V) kind fname).

Lemma last_name x h : x_hlen x = length (x_handlers x) -> last (x_handlers x) = Some h -> HandlerName x = nameOfFunction h.
Proof.
  intros Hl Hh. unfold HandlerName.HandlerName. rewrite Hl. rewrite last_lookup in Hh.
  destruct (x_handlers x) as [|a l] eqn:E; [done|]. cbn [length] in *. cbn [pred] in Hh. by rewrite Hh.
Qed.
Lemma routes_handled ops r0 opts v : engine_of re_ok ops r0 opts e -> v ∈ routes e -> rt_handlers v <> [].
Proof.
  intros (hp & mem & mem' & Hr & Hh) Hv. destruct (middleware_order _ _ _ _ _ _ _ _ Hr Hh) as (ls & _ & Hf).
  apply elem_of_list_lookup_1 in Hv as [j Hj]. destruct (Forall2_lookup_r _ _ _ _ _ Hf Hj) as (l & _ & path & m & _ & _ & _ & _ & _ & Hne & _).
  done.
Qed.
Lemma picked_handled ops r0 opts req hs : engine_of re_ok ops r0 opts e -> picked re_ok re_find e req hs -> hs <> [].
Proof.
  intros He Hp. destruct Hp as [v p tbl _ Ht Hc Hf|u v _ _ Hv _ _|_ Hn]; [|by eapply routes_handled|done].
  eapply routes_handled; [done|]. by eapply (chosen_fits re_ok re_find e req tbl p v).
Qed.
Lemma handler_name ops r0 opts w t p q fs x r body :
  engine_of re_ok ops r0 opts e -> reachable w -> w_threads w !! t = Some (TProg p q fs) -> w_ctx w !! p = Some x ->
  w_input w !! t = Some (r, body) ->
  exists hs h, picked re_ok re_find e r hs /\ last hs = Some h /\ HandlerName x = nameOfFunction h.
Proof.
  intros He Hw Hk Hx Hin. destruct (staged_reachable w Hw t _ r body Hk Hin) as [_ S].
  destruct (S p x eq_refl Hx) as (i & Hi & old & H1 & H2 & H3). apply refusal_none in Hi as [_ Hi].
  pose proof (find_picked re_ok re_find _ _ _ _ _ _ old He Hi H3) as Hp. rewrite <- H1 in Hp.
  pose proof (picked_handled _ _ _ _ _ He Hp) as Hne.
  destruct (last (x_handlers x)) as [h|] eqn:Hl; [|by apply last_None in Hl].
  exists (x_handlers x), h. split_and!; [done|done|by apply last_name].
Qed.
End Facts.
