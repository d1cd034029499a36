(** Response helpers called by a handler anywhere in the chain, by the log. *)
From Verif Require Import Base GoStr GoStrFacts Strconv Util Pattern Tree TreeSpec Header Router Ctx CtxFacts TraceSpec Engine EngineSpec
  ServeFacts ServeProps ServeTop ServeThms ServeDispatch Content ContentFacts StaticSpec HelperSpec HttpFacts CorsFacts RedirectFacts HelperFacts CorsMore.
Local Open Scope Z_scope.

(** ** How the calls end that the helpers make *)
Section Rule.
Context {A V : Type}.
Variable sniff : gostr -> gostr.
Variable parse_form : bool -> request -> gostr * bool -> gmap gostr (list gostr) * bool * gostr.

Definition plain_rule (l : list (event V)) (ev : event V) : Prop :=
  match ev with
  | EvCall o a => match o return outcome (ans o) -> Prop with
      | OHeaderGet k => fun a => exists v, a = Norm v /\ (first_code l = None -> v = h_get (headers_of l) k)
      | OHeaderSet _ _ | OHeaderAdd _ _ | OHeaderDel _ | OWrite _ => fun a => a = Norm tt
      | OWriteHeader n => fun a => valid_code n = true -> a = Norm tt
      | _ => fun _ => True
      end a
  | _ => True
  end.
Lemma headers_wire (l w : list (event V)) : Forall wire w -> headers_of (l ++ w) = headers_of l.
Proof.
  intros Hw. unfold headers_of. rewrite fold_left_app. generalize (fold_left hdr_step l ∅). induction Hw as [|ev w Hev _ IH]; intros h; [done|].
  cbn [fold_left]. rewrite IH. by destruct ev.
Qed.
Lemma raw_Write_hdr d (c : conn V) : rw_hdr (cn_rw (raw_Write d c)) = rw_hdr (cn_rw c).
Proof.
  unfold raw_Write. cbn zeta. destruct (rw_sent (cn_rw (log c (EvData d)))) as [[n h]|] eqn:E; simpl in E; simpl; rewrite ?E; simpl.
  - by destruct (body_allowed n).
  - done.
Qed.
Lemma raw_WriteHeader_hdr n (c c' : conn V) o : raw_WriteHeader n c = (o, c') -> rw_hdr (cn_rw c') = rw_hdr (cn_rw c) /\ (valid_code n = true -> o = Norm tt).
Proof.
  rewrite raw_WriteHeader_spec. destruct (rw_sent _); [by intros [= <- <-]|].
  destruct (valid_code n) eqn:E; intros [= <- <-]; done.
Qed.
Lemma plain_invariant : invariant (A:=A) sniff parse_form (fun _ : op V => True)
  (fun x c => (first_code (cn_log c) = None -> rw_hdr (cn_rw c) = headers_of (cn_log c)) /\ hist plain_rule (cn_log c))
  (fun x c => (first_code (cn_log c) = None -> rw_hdr (cn_rw c) = headers_of (cn_log c)) /\ hist plain_rule (cn_log c)).
Proof.
  apply (rule_invariant _ _ _ _ (fun x c => first_code (cn_log c) = None -> rw_hdr (cn_rw c) = headers_of (cn_log c))).
  - by intros l [].
  - intros x c ev Hev H. cbn [log cn_rw cn_log]. rewrite headers_of_snoc, first_code_app, first_code_one. intros Hf.
    destruct (first_code (cn_log c)); [done|]. rewrite H by done. by destruct ev.
  - done.
  - intros o x c rr x' c' w _ HJ H Hw Hl.
    rewrite Hl, headers_of_snoc, headers_wire, first_code_app, first_code_wire, first_code_one by done.
    assert (Hq : quiet_op o \/ ~ quiet_op o) by (destruct o; simpl; auto).
    destruct Hq as [Hq|Hq].
    { pose proof (quiet_rw _ _ _ _ _ _ _ _ Hq H) as Hrw. rewrite Hrw. split.
      { intros Hf. destruct (first_code (cn_log c)); [done|]. by rewrite HJ. }
      apply call_eq in H as (c1 & Hd & _). destruct o; try done; cbn in Hd; injection Hd as <- _ _; [|done|done|done].
      cbn. eexists. split; [reflexivity|]. intros Hf. rewrite first_code_wire in Hf by done. by rewrite HJ, headers_wire. }
    apply call_eq in H as (c1 & Hd & ->). cbn [log cn_rw].
    destruct o; try (by destruct Hq); cbn [Ctx.do_op] in Hd; cbn [asks hdr_step plain_rule].
    + split; [by destruct (first_code (cn_log c))|]. unfold ctx_WriteHeader in Hd. destruct (x_written x); [by injection Hd as <- <- <-|].
      destruct (raw_WriteHeader code c) as [o2 c2] eqn:E. apply raw_WriteHeader_hdr in E as [E1 E2].
      destruct o2 as [[]|v]; injection Hd as <- <- <-; [done|exact E2].
    + split; [by destruct (first_code (cn_log c))|]. unfold ctx_Write in Hd. destruct (x_written x) eqn:Ex; cbn [negb] in Hd; [by injection Hd as <- <- <-|].
      match type of Hd with context [ctx_WriteHeader 200 x ?cc] => set (c2 := cc) in Hd end.
      unfold ctx_WriteHeader in Hd. rewrite Ex in Hd. destruct (raw_WriteHeader 200 c2) as [o2 c3] eqn:E.
      apply raw_WriteHeader_hdr in E as [_ E2]. rewrite E2 in Hd by done. by injection Hd as <- _ _.
    + split; [|done]. intros Hf. destruct (raw_WriteHeader code c) as [o2 c2] eqn:E. apply raw_WriteHeader_hdr in E as [E1 E2].
      injection Hd as _ _ <-. rewrite E1. destruct (first_code (cn_log c)); [done|by apply HJ].
    + split; [|done]. intros Hf. injection Hd as _ _ <-. rewrite raw_Write_hdr. destruct (first_code (cn_log c)); [done|by apply HJ].
Qed.
End Rule.

(** ** The log of a sequence of calls *)
Section Prog.
Context {A V : Type}.
Variable code : handler A -> prog V.
Variable hs : list (handler A).

Inductive logged : list (op V) -> list (event V) -> Prop :=
  | logged_nil : logged [] []
  | logged_cons o os w a m : Forall on_wire w -> logged os m -> logged (o :: os) (w ++ EvCall o (Norm a) :: m).
Definition plain (o : op V) : Prop :=
  match o with OHeaderSet _ _ | OHeaderAdd _ _ | OHeaderDel _ | OWrite _ => True | OWriteHeader n => valid_code n = true | _ => False end.

Lemma did_seqp os k : Forall plain os -> forall P m en, did code hs (seqp os k) m en ->
  (forall l1 ev l2, m = l1 ++ ev :: l2 -> plain_rule (P ++ l1) ev) ->
  exists m1 m2, m = m1 ++ m2 /\ logged os m1 /\ did code hs k m2 en.
Proof.
  induction 1 as [|o os Ho _ IH]; intros P m en Hd Hr.
  - exists [], m. split_and!; [done|constructor|done].
  - apply did_do in Hd as [(w & a & l & Hw & -> & Hd)|(w & v & Hw & -> & ->)].
    + destruct (IH (P ++ w ++ [EvCall o (Norm a)]) l en Hd) as (m1 & m2 & -> & H2 & H3).
      { intros l1 ev l2 E. replace ((P ++ w ++ [EvCall o (Norm a)]) ++ l1) with (P ++ (w ++ EvCall o (Norm a) :: l1)) by lists.
        apply (Hr _ ev l2). rewrite E. by lists. }
      exists (w ++ EvCall o (Norm a) :: m1), m2. split_and!; [by lists|by constructor|done].
    + exfalso. specialize (Hr w _ [] eq_refl). destruct o; try done. by specialize (Hr Ho).
Qed.

Lemma logged_app os1 os2 m : logged (os1 ++ os2) m -> exists m1 m2, m = m1 ++ m2 /\ logged os1 m1 /\ logged os2 m2.
Proof.
  revert m. induction os1 as [|o os1 IH]; intros m H; [exists [], m; split_and!; [done|constructor|done]|].
  cbn [app] in H. inversion H as [|o' os' w a m' Hw Hm]; subst.
  destruct (IH _ Hm) as (m1 & m2 & -> & H1 & H2). exists (w ++ EvCall o (Norm a) :: m1), m2. split_and!; [by lists|by constructor|done].
Qed.
Lemma logged_cons_inv o os m : logged (o :: os) m -> exists w a m', m = w ++ EvCall o (Norm a) :: m' /\ Forall on_wire w /\ logged os m'.
Proof. inversion 1; subst. eauto 10. Qed.
Lemma data_wire (w : list (event V)) : Forall on_wire w -> data_of w = [].
Proof. induction 1 as [|ev w Hev _ IH]; [done|]. change (ev :: w) with ([ev] ++ w). rewrite data_of_app, IH. by destruct ev. Qed.
Lemma logged_facts os m : logged os m -> starts m = [] /\ data_of m = concat (map op_data os) /\
  (Forall headerly os -> first_code m = None /\ forall h, fold_left hdr_step m h = fold_left hop os h).
Proof.
  induction 1 as [|o os w a m Hw Hm (H1 & H2 & H3)]; [done|].
  destruct (wire_quiet w Hw) as (W1 & W2 & W3). change (EvCall o (Norm a) :: m) with ([EvCall o (Norm a)] ++ m). split; [|split].
  - by rewrite !starts_app, W1, H1.
  - rewrite !data_of_app, H2, data_wire by done. cbn [app map concat]. f_equal. unfold data_of. destruct o; try done. cbn. by rewrite app_nil_r.
  - intros Hh. inversion Hh as [|? ? Ho Hos]; subst. destruct (H3 Hos) as [H4 H5]. split.
    + rewrite !first_code_app, H4. change (first_code w) with (first_code ([] ++ w)). rewrite W2, first_code_one. by destruct o.
    + intros h. rewrite !fold_left_app, W3. cbn [fold_left]. rewrite H5. by destruct o.
Qed.
End Prog.

Section Engine.
Context {A V F : Type}.
Variable re_ok : gostr -> bool.
Variable re_find : gostr -> gostr -> option (list gostr).
Variable sniff : gostr -> gostr.
Variable parse_form : bool -> request -> gostr * bool -> gmap gostr (list gostr) * bool * gostr.
Variable code : handler A -> prog V.

(** the code of handler i, with what its calls may answer *)
Lemma turn_log ops r0 opts (e : engine A) id x r body en px c' (Q : prog V -> Prop) i l1 l2 :
  engine_of re_ok ops r0 opts e ->
  ServeHTTP re_find sniff parse_form code e id x (arrive r body) = (en, px, c') ->
  (forall hs, dispatched re_ok re_find e r hs -> exists g, hs !! i = Some g /\ Q (code g)) ->
  cn_log c' = l1 ++ EvStart i :: l2 ->
  exists hs p m l3 en', Q p /\ l2 = m ++ l3 /\ did code hs p m en' /\
    (forall k1 ev k2, m = k1 ++ ev :: k2 -> plain_rule ((l1 ++ [EvStart i]) ++ k1) ev) /\
    (forall k1 ev k2, m = k1 ++ ev :: k2 -> request_rule r [] ev).
Proof.
  intros He H Hd Hl.
  destruct (dispatched_ran re_ok re_find sniff parse_form _ _ _ _ _ _ _ _ _ _ _ _ He H)
    as [(n & -> & -> & _)|(_ & hs & ps & n & Hdis & Hran)]; [by destruct l1 as [|? []]|].
  destruct (Hd _ Hdis) as (g & Hg & Hcode).
  assert (hist (request_rule r) (cn_log c')) as Hreq.
  { destruct (ran_inv _ _ _ _ _ _ _ _ _ _ _ Hran _ _ _ (request_invariant sniff parse_form r)) as (x' & (_ & Hh) & _);
      [intros h _; apply only_any|split; [done|apply hist_nil]|done]. }
  assert (hist plain_rule (cn_log c')) as Hplain.
  { destruct (ran_inv _ _ _ _ _ _ _ _ _ _ _ Hran _ _ _ (plain_invariant sniff parse_form)) as (x' & (_ & Hh) & _);
      [intros h _; apply only_any|split; [done|apply hist_nil]|done]. }
  pose proof (ran_turns _ _ _ _ _ _ _ _ _ _ _ Hran) as Ht.
  destruct (proj2 (called_code _ hs) _ _ Ht _ _ _ Hl) as (h & m & en' & l3 & Hh & -> & Hdid & Hend).
  assert (h = g) as -> by congruence.
  exists hs, (code g), m, l3, en'. split_and!; [done|done|done|..].
  - intros k1 ev k2 ->. apply (Hplain _ ev (k2 ++ l3)). rewrite Hl. by lists.
  - intros k1 ev k2 ->. apply (Hreq (l1 ++ EvStart i :: k1) ev (k2 ++ l3)). rewrite Hl. by lists.
Qed.

Lemma started (c : conn V) l1 i l2 : cn_log c = l1 ++ EvStart i :: l2 -> starts (cn_log c) <> [].
Proof. intros Hl. rewrite Hl, starts_app. intros E. apply app_eq_nil in E as [_ E]. discriminate E. Qed.
Lemma fresh_code (l : list (event V)) : ~ responded l -> first_code l = None.
Proof. rewrite responded_iff. destruct (first_code l); [|done]. intros Hn. by destruct Hn; eexists. Qed.

(** headers, status and body, in this order *)
Lemma deliver_log ops r0 opts (e : engine A) id x r body en px c' hs os n rest k L0 m l3 en' :
  engine_of re_ok ops r0 opts e ->
  ServeHTTP re_find sniff parse_form code e id x (arrive r body) = (en, px, c') -> starts (cn_log c') <> [] -> uses_ctx code e ->
  cn_log c' = L0 ++ m ++ l3 -> first_code L0 = None ->
  did code hs (seqp (os ++ [OWriteHeader n] ++ rest) k) m en' ->
  (forall k1 ev k2, m = k1 ++ ev :: k2 -> plain_rule (L0 ++ k1) ev) ->
  Forall headerly os -> Forall plain rest -> 100 <= n <= 999 ->
  exists m1 m2, m = m1 ++ m2 /\ starts m1 = [] /\
    rw_sent (cn_rw c') = Some (n, fold_left hop os (headers_of L0)) /\
    (bodiless n -> rw_body (cn_rw c') = []) /\
    (~ bodiless n -> rw_body (cn_rw c') = concat (map op_data rest) ++ data_of (m2 ++ l3)).
Proof.
  intros He H Hs Hu Hl Hf Hdid Hr Hos Hrest Hn.
  assert (Forall plain (os ++ [OWriteHeader n] ++ rest)) as Hp.
  { rewrite !Forall_app. split_and!; [|by repeat constructor; apply code_ok|done]. eapply Forall_impl; [exact Hos|]. by intros []. }
  destruct (did_seqp code hs _ k Hp L0 m en' Hdid Hr) as (m1 & m2 & -> & Hm1 & _).
  destruct (logged_facts _ _ Hm1) as (S1 & _ & _). exists m1, m2. split; [done|]. split; [done|].
  apply logged_app in Hm1 as (k1 & k2 & -> & K1 & K2). cbn [app] in K2. apply logged_cons_inv in K2 as (w & a & k3 & -> & Hw & K3).
  destruct (logged_facts _ _ K1) as (_ & _ & F1). destruct (F1 Hos) as [F2 F3]. destruct (logged_facts _ _ K3) as (_ & D3 & _).
  destruct (wire_quiet w Hw) as (_ & W2 & W3).
  destruct (explicit_header re_ok re_find sniff parse_form code _ _ _ _ _ _ _ _ _ _ _ (L0 ++ k1 ++ w) n (Norm a) (k3 ++ m2 ++ l3) He H Hs Hu) as (_ & _ & E2 & E3 & E4).
  - rewrite Hl. by lists.
  - rewrite app_assoc, W2, first_code_app, Hf. done.
  - done.
  - split_and!; [|done|].
    + rewrite E2. unfold headers_of. by rewrite !fold_left_app, W3, F3.
    + intros Hb. rewrite (E4 Hb), data_of_app, D3. done.
Qed.

(** ** Status and body *)
Lemma answer_behind ops r0 opts (e : engine A) id x r body en px c' n s k i l1 l2 :
  engine_of re_ok ops r0 opts e ->
  ServeHTTP re_find sniff parse_form code e id x (arrive r body) = (en, px, c') -> uses_ctx code e ->
  (forall hs, dispatched re_ok re_find e r hs -> exists g, hs !! i = Some g /\ answers_then (code g) n s k) ->
  cn_log c' = l1 ++ EvStart i :: l2 -> ~ responded l1 -> 100 <= n <= 999 ->
  exists m l3, l2 = m ++ l3 /\ starts m = [] /\ rw_sent (cn_rw c') = Some (n, headers_of l1) /\
    (bodiless n -> rw_body (cn_rw c') = []) /\ (~ bodiless n -> rw_body (cn_rw c') = s ++ data_of l3).
Proof.
  intros He H Hu Hd Hl Hn Hv.
  destruct (turn_log _ _ _ _ _ _ _ _ _ _ _ (fun p => answers_then p n s k) i l1 l2 He H Hd Hl) as (hs & p & m & l3 & en' & Hp & -> & Hdid & R1 & _).
  apply then_seqp in Hp as (os & -> & Hos & <-).
  destruct (deliver_log _ _ _ _ _ _ _ _ _ _ _ hs [] n os k (l1 ++ [EvStart i]) m l3 en' He H (started _ _ _ _ Hl) Hu) as (m1 & m2 & -> & S1 & E1 & E2 & E3); try done.
  - rewrite Hl. by lists.
  - rewrite first_code_app. by rewrite (fresh_code _ Hn).
  - eapply Forall_impl; [exact Hos|]. intros o [(? & ? & ->)|(? & ->)]; done.
  - exists m1, (m2 ++ l3). split_and!; [by lists|done| |done|done].
    rewrite E1. cbn [fold_left]. by rewrite headers_of_snoc.
Qed.
Lemma nocache_behind ops r0 opts (e : engine A) id x r body en px c' n s k i l1 l2 :
  engine_of re_ok ops r0 opts e ->
  ServeHTTP re_find sniff parse_form code e id x (arrive r body) = (en, px, c') -> uses_ctx code e ->
  (forall hs, dispatched re_ok re_find e r hs -> exists g p, hs !! i = Some g /\ code g = NoCache p /\ answers_then p n s k) ->
  cn_log c' = l1 ++ EvStart i :: l2 -> ~ responded l1 -> 100 <= n <= 999 ->
  exists m l3 hd, l2 = m ++ l3 /\ starts m = [] /\ rw_sent (cn_rw c') = Some (n, hd) /\ no_cache_over (headers_of l1) hd /\
    (bodiless n -> rw_body (cn_rw c') = []) /\ (~ bodiless n -> rw_body (cn_rw c') = s ++ data_of l3).
Proof.
  intros He H Hu Hd Hl Hn Hv.
  destruct (turn_log _ _ _ _ _ _ _ _ _ _ _ (fun q => exists p, q = NoCache p /\ answers_then p n s k) i l1 l2 He H) as (hs & p & m & l3 & en' & (q & -> & Hp) & -> & Hdid & R1 & _).
  { intros hs Hdis. destruct (Hd _ Hdis) as (g & p & H1 & H2 & H3). eauto. }
  { exact Hl. }
  apply then_seqp in Hp as (os & -> & Hos & <-). unfold NoCache in Hdid. rewrite <- seqp_app in Hdid.
  match type of Hdid with did _ _ (seqp (?a ++ _) _) _ _ => set (hdrs := a) in Hdid end.
  destruct (deliver_log _ _ _ _ _ _ _ _ _ _ _ hs hdrs n os k (l1 ++ [EvStart i]) m l3 en' He H (started _ _ _ _ Hl) Hu) as (m1 & m2 & -> & S1 & E1 & E2 & E3); try done.
  - rewrite Hl. by lists.
  - rewrite first_code_app. by rewrite (fresh_code _ Hn).
  - by repeat constructor.
  - eapply Forall_impl; [exact Hos|]. intros o [(? & ? & ->)|(? & ->)]; done.
  - exists m1, (m2 ++ l3). eexists. split; [by lists|]. split; [done|]. split; [exact E1|]. split; [|done].
    unfold hdrs. rewrite headers_of_snoc. cbn [hdr_step fold_left]. unfold no_cache_over, same_but. split_and!.
    + rewrite !h_values_hop. reflexivity.
    + rewrite !h_values_hop. reflexivity.
    + intros key Hk. rewrite !h_values_hop, !(seqb_other key _ _ Hk) by (vm_compute; reflexivity). done.
Qed.

(** ** Stream *)
Lemma stream_behind ops r0 opts (e : engine A) id x r body en px c' t out ok k i l1 l2 :
  engine_of re_ok ops r0 opts e ->
  ServeHTTP re_find sniff parse_form code e id x (arrive r body) = (en, px, c') -> uses_ctx code e ->
  (forall hs, dispatched re_ok re_find e r hs -> exists g, hs !! i = Some g /\ code g = Stream t out ok k) ->
  cn_log c' = l1 ++ EvStart i :: l2 -> ~ responded l1 -> t <> [] -> concat out <> [] ->
  exists m l3 hd, l2 = m ++ l3 /\ starts m = [] /\ rw_sent (cn_rw c') = Some (200, hd) /\ typed_over t (headers_of l1) hd /\
    rw_body (cn_rw c') = concat out ++ data_of l3.
Proof.
  intros He H Hu Hd Hl Hn Ht Hout.
  destruct (turn_log _ _ _ _ _ _ _ _ _ _ _ (fun q => q = Stream t out ok k) i l1 l2 He H Hd Hl) as (hs & p & m & l3 & en' & -> & -> & Hdid & R1 & _).
  unfold Stream in Hdid. set (ds := List.filter (fun d => negb (length d =? 0)%nat) out) in Hdid.
  assert (Hc : concat ds = concat out).
  { unfold ds. clear. induction out as [|d out IH]; [done|]. cbn [List.filter concat]. destruct d as [|a d]; [done|].
    cbn [length Nat.eqb negb concat]. by rewrite IH. }
  destruct ds as [|d ds]; [by rewrite <- Hc in Hout|]. rewrite <- Hc. clear Hc Hout.
  assert (Forall (plain (V:=V)) (OHeaderSet HeaderContentType t :: map OWrite (d :: ds))) as Hp.
  { constructor; [done|]. apply Forall_forall. intros o Ho. by apply elem_of_list_fmap in Ho as (d' & -> & _). }
  destruct (did_seqp code hs _ _ Hp (l1 ++ [EvStart i]) m en' Hdid R1) as (m1 & m2 & -> & Hm1 & _).
  destruct (logged_facts _ _ Hm1) as (S1 & _ & _).
  apply logged_cons_inv in Hm1 as (w & a & k2 & -> & Hw & K2). cbn [map] in K2. apply logged_cons_inv in K2 as (w2 & a2 & k3 & -> & Hw2 & K3).
  destruct (logged_facts _ _ K3) as (_ & D3 & _).
  destruct (wire_quiet w Hw) as (_ & W2 & W3). destruct (wire_quiet w2 Hw2) as (_ & X2 & X3).
  destruct (implicit_header re_ok re_find sniff parse_form code _ _ _ _ _ _ _ _ _ _ _
    ((l1 ++ [EvStart i]) ++ w ++ [EvCall (OHeaderSet HeaderContentType t) (Norm a)] ++ w2) d (Norm a2) (k3 ++ m2 ++ l3) He H (started _ _ _ _ Hl) Hu) as (_ & _ & E2 & E3).
  - rewrite Hl. by lists.
  - rewrite !app_assoc, X2. rewrite first_code_app, W2, first_code_app. by rewrite (fresh_code _ Hn).
  - assert (headers_of ((l1 ++ [EvStart i]) ++ w ++ [EvCall (OHeaderSet HeaderContentType t) (Norm a)] ++ w2) = h_set (headers_of l1) HeaderContentType t) as Eh.
    { unfold headers_of. rewrite !fold_left_app, X3, W3. reflexivity. }
    rewrite Eh in E2. unfold guess in E2. rewrite decide_False in E2.
    2: { intros [_ E]. change (L "Content-Type") with HeaderContentType in E. by rewrite h_get_set in E. }
    eexists (w ++ EvCall (OHeaderSet HeaderContentType t) (Norm a) :: w2 ++ EvCall (OWrite d) (Norm a2) :: k3), (m2 ++ l3), _.
    split; [by lists|]. split; [done|]. split; [exact E2|]. split.
    + change (h_set (headers_of l1) HeaderContentType t) with (hop (headers_of l1) (OHeaderSet (V:=V) HeaderContentType t)). split.
      * rewrite h_values_hop. reflexivity.
      * intros key Hk. rewrite h_values_hop, (seqb_other key _ _ Hk) by (vm_compute; reflexivity). done.
    + rewrite E3, data_of_app, D3. cbn [concat]. rewrite map_map. cbn [op_data]. rewrite map_id. by rewrite <- app_assoc.
Qed.

(** ** Redirects *)
Lemma did_request (hs : list (handler A)) r P (k : request -> prog V) m en' :
  did code hs (PDo ORequest k) m en' -> (forall k1 ev k2, m = k1 ++ ev :: k2 -> request_rule r P ev) ->
  exists w l, m = w ++ EvCall ORequest (Norm r) :: l /\ Forall on_wire w /\ did code hs (k r) l en'.
Proof.
  intros Hd Hr. apply did_do in Hd as [(w & b & l & Hw & -> & Hd)|(w & v & Hw & -> & ->)].
  - assert (Norm (X:=request) b = Norm r) as E by (exact (Hr w (EvCall ORequest (Norm b)) l eq_refl)). injection E as ->. by exists w, l.
  - specialize (Hr w (EvCall ORequest (Throw v)) [] eq_refl). discriminate Hr.
Qed.
Lemma did_get (hs : list (handler A)) P key (k : gostr -> prog V) m en' :
  did code hs (PDo (OHeaderGet key) k) m en' -> (forall k1 ev k2, m = k1 ++ ev :: k2 -> plain_rule (P ++ k1) ev) -> first_code P = None ->
  exists w l, m = w ++ EvCall (OHeaderGet key) (Norm (h_get (headers_of P) key)) :: l /\ Forall on_wire w /\ did code hs (k (h_get (headers_of P) key)) l en'.
Proof.
  intros Hd Hr Hf. apply did_do in Hd as [(w & b & l & Hw & -> & Hd)|(w & v & Hw & -> & ->)].
  - destruct (Hr w (EvCall (OHeaderGet key) (Norm b)) l eq_refl) as (v & E & Ev). injection E as ->.
    destruct (wire_quiet w Hw) as (_ & W2 & W3). rewrite W2 in Ev. specialize (Ev Hf). unfold headers_of in Ev. rewrite fold_left_app, W3 in Ev.
    unfold headers_of. rewrite <- Ev. by exists w, l.
  - destruct (Hr w (EvCall (OHeaderGet key) (Throw v)) [] eq_refl) as (v' & E & _). discriminate E.
Qed.

Section Redirect.
Variable location : request -> gostr -> gostr.
Variable page : request -> gostr -> Z -> gostr.
Lemma redirect_behind ops r0 opts (e : engine A) id x r body en px c' uri n k i l1 l2 :
  engine_of re_ok ops r0 opts e ->
  ServeHTTP re_find sniff parse_form code e id x (arrive r body) = (en, px, c') -> uses_ctx code e ->
  (forall hs, dispatched re_ok re_find e r hs -> exists g, hs !! i = Some g /\
     (code g = MovedPermanently location page uri k /\ n = 301 \/ code g = Found location page uri k /\ n = 302)) ->
  cn_log c' = l1 ++ EvStart i :: l2 -> ~ responded l1 ->
  exists m l3 hd, l2 = m ++ l3 /\ starts m = [] /\ rw_sent (cn_rw c') = Some (n, hd) /\
    redirect_over r (location r uri) (headers_of l1) hd /\
    rw_body (cn_rw c') = redirect_page r (headers_of l1) (page r uri n) ++ data_of l3.
Proof.
  intros He H Hu Hd Hl Hn.
  destruct (turn_log _ _ _ _ _ _ _ _ _ _ _ (fun q => q = MovedPermanently location page uri k /\ n = 301 \/ q = Found location page uri k /\ n = 302)
    i l1 l2 He H Hd Hl) as (hs & p & m & l3 & en' & Hp & -> & Hdid & R1 & R2).
  assert (p = Redirect location page uri n k /\ (n = 301 \/ n = 302)) as [-> Hnn] by (destruct Hp as [[-> ->]|[-> ->]]; auto). clear Hp.
  assert (~ bodiless n) as Hb. { rewrite <- bodiless_ok. by destruct Hnn as [->| ->]. }
  unfold Redirect in Hdid. apply (did_request hs r []) in Hdid as (w & m1 & -> & Hw & Hdid); [|done].
  destruct (wire_quiet w Hw) as (V1 & V2 & V3).
  set (P := (l1 ++ [EvStart i]) ++ w ++ [EvCall ORequest (Norm r)]).
  assert (first_code P = None) as HP.
  { unfold P. rewrite app_assoc, first_code_app, V2, first_code_app. by rewrite (fresh_code _ Hn). }
  assert (headers_of P = headers_of l1) as HPh. { unfold P, headers_of. by rewrite !fold_left_app, V3. }
  apply (did_get hs P) in Hdid as (w' & m2 & -> & Hw' & Hdid); [| |exact HP].
  2: { intros k1 ev k2 E. unfold P. replace (((l1 ++ [EvStart i]) ++ w ++ [EvCall ORequest (Norm r)]) ++ k1) with ((l1 ++ [EvStart i]) ++ w ++ EvCall ORequest (Norm r) :: k1) by lists.
       apply (R1 _ ev k2). rewrite E. by lists. }
  rewrite HPh in Hdid. destruct (wire_quiet w' Hw') as (U1 & U2 & U3). cbv zeta in Hdid.
  set (t := h_get (headers_of l1) HeaderContentType) in *.
  set (os1 := if negb (negb (seqb t [])) && (seqb (rq_method r) (L "GET") || seqb (rq_method r) (L "HEAD")) then _ else _) in Hdid.
  set (os2 := if negb (negb (seqb t [])) && seqb (rq_method r) (L "GET") then _ else _) in Hdid.
  rewrite app_assoc in Hdid.
  set (P2 := P ++ w' ++ [EvCall (OHeaderGet HeaderContentType) (Norm (h_get (headers_of P) HeaderContentType))]) in *.
  match type of Hdid with did _ _ (seqp (?a ++ _) _) _ _ => set (hdrs := a) in Hdid end.
  destruct (deliver_log _ _ _ _ _ _ _ _ _ _ _ hs hdrs n os2 k P2 m2 l3 en' He H (started _ _ _ _ Hl) Hu) as (k1 & k2 & -> & S1 & E1 & _ & E3).
  - rewrite Hl. unfold P2, P. by lists.
  - unfold P2. rewrite app_assoc, first_code_app, U2, HP. done.
  - exact Hdid.
  - intros k1 ev k2 E. unfold P2, P.
    match goal with |- plain_rule ?a _ => replace a with ((l1 ++ [EvStart i]) ++ w ++ EvCall ORequest (Norm r) :: w' ++ EvCall (OHeaderGet HeaderContentType) (Norm (h_get (headers_of P) HeaderContentType)) :: k1) by (unfold P; lists) end.
    apply (R1 _ ev k2). rewrite E. by lists.
  - apply Forall_app. split; [by repeat constructor|]. unfold os1. match goal with |- context [if ?b then _ else _] => destruct b end; by repeat constructor.
  - unfold os2. match goal with |- context [if ?b then _ else _] => destruct b end; [by repeat constructor|constructor].
  - lia.
  - eexists (w ++ EvCall ORequest (Norm r) :: w' ++ EvCall (OHeaderGet HeaderContentType) (Norm (h_get (headers_of P) HeaderContentType)) :: k1), (k2 ++ l3), _.
    split; [by lists|]. split.
    { etrans; [apply starts_app|]. rewrite V1. etrans; [exact (starts_app w' (_ :: k1))|]. rewrite U1. exact S1. }
    split; [exact E1|].
    assert (headers_of P2 = headers_of l1) as HP2. { unfold P2. unfold headers_of in *. by rewrite !fold_left_app, U3, HPh. }
    unfold hdrs. rewrite HP2, fold_left_app. split.
    + assert (t = h_get (headers_of l1) (L "Content-Type")) as Et by done. unfold redirect_over, same_but. rewrite <- Et. unfold os1.
      destruct (seqb t []) eqn:E; [apply seqb_true in E|apply seqb_false in E]; cbn [negb andb].
      * destruct (seqb (rq_method r) (L "GET") || seqb (rq_method r) (L "HEAD")) eqn:Eg; cbn [fold_left app].
        -- rewrite decide_True; [|split; [done|]; apply orb_true_iff in Eg as [Eg|Eg]; apply seqb_true in Eg; auto].
           split_and!; [by rewrite !h_values_hop|by rewrite !h_values_hop|].
           intros key Hk. rewrite !h_values_hop, !(seqb_other key _ _ Hk) by (vm_compute; reflexivity). done.
        -- rewrite decide_False; [|intros [_ [Eq|Eq]]; rewrite Eq in Eg; vm_compute in Eg; done].
           split_and!; [by rewrite !h_values_hop, seqb_refl|by rewrite !h_values_hop|].
           intros key Hk. rewrite !h_values_hop, !(seqb_other key _ _ Hk) by (vm_compute; reflexivity). done.
      * cbn [fold_left app]. rewrite decide_False by (by intros [? _]).
        split_and!; [by rewrite !h_values_hop, seqb_refl|by rewrite !h_values_hop|].
        intros key Hk. rewrite !h_values_hop, !(seqb_other key _ _ Hk) by (vm_compute; reflexivity). done.
    + rewrite (E3 Hb). f_equal. unfold redirect_page, os2. change (h_get (headers_of l1) (L "Content-Type")) with t.
      destruct (seqb t []) eqn:E; [apply seqb_true in E|apply seqb_false in E]; cbn [negb andb].
      * destruct (seqb (rq_method r) (L "GET")) eqn:Eg; [apply seqb_true in Eg|apply seqb_false in Eg].
        -- rewrite decide_True by done. apply app_nil_r.
        -- by rewrite decide_False by (by intros [_ ?]).
      * by rewrite decide_False by (by intros [? _]).
Qed.
End Redirect.

(** ** Attachments and downloads *)
Section Attachment.
Variable serve : request -> gostr -> gostr -> gostr -> F -> list (gostr * option gostr) * Z * list gostr.

Definition ruled (r : request) (P m : list (event V)) : Prop :=
  (forall k1 ev k2, m = k1 ++ ev :: k2 -> plain_rule (P ++ k1) ev) /\ (forall k1 ev k2, m = k1 ++ ev :: k2 -> request_rule r [] ev).
Definition silent (P m1 : list (event V)) : Prop :=
  starts m1 = [] /\ first_code (P ++ m1) = None /\ headers_of (P ++ m1) = headers_of P.
Lemma ruled_app r P m1 m2 : ruled r P (m1 ++ m2) -> ruled r (P ++ m1) m2.
Proof.
  intros [H1 H2]. split; intros k1 ev k2 ->.
  - rewrite <- app_assoc. apply (H1 _ ev k2). by lists.
  - apply (H2 (m1 ++ k1) ev k2). by lists.
Qed.
Lemma silent_step P (w : list (event V)) ev : first_code P = None -> Forall on_wire w ->
  asks ev = None -> starts [ev] = [] -> (forall h, hdr_step h ev = h) -> silent P (w ++ [ev]).
Proof.
  intros Hf Hw H1 H2 H3. destruct (wire_quiet w Hw) as (W1 & W2 & W3). split; [by rewrite starts_app, W1|]. split.
  - rewrite app_assoc, first_code_app, W2, Hf, first_code_one. done.
  - unfold headers_of. rewrite !fold_left_app, W3. cbn [fold_left]. apply H3.
Qed.
Lemma step_request (hs : list (handler A)) r P (k : request -> prog V) m en' :
  did code hs (PDo ORequest k) m en' -> ruled r P m -> first_code P = None ->
  exists m1 m2, m = m1 ++ m2 /\ silent P m1 /\ did code hs (k r) m2 en'.
Proof.
  intros Hd Hr Hf. destruct (did_request hs r [] k m en' Hd (proj2 Hr)) as (w & l & -> & Hw & Hd').
  exists (w ++ [EvCall ORequest (Norm r)]), l. split; [by lists|]. split; [by apply silent_step|done].
Qed.
Lemma step_get (hs : list (handler A)) r P key (k : gostr -> prog V) m en' :
  did code hs (PDo (OHeaderGet key) k) m en' -> ruled r P m -> first_code P = None ->
  exists m1 m2, m = m1 ++ m2 /\ silent P m1 /\ did code hs (k (h_get (headers_of P) key)) m2 en'.
Proof.
  intros Hd Hr Hf. destruct (did_get hs P key k m en' Hd (proj1 Hr) Hf) as (w & l & -> & Hw & Hd').
  eexists (w ++ [_]), l. split; [by lists|]. split; [by apply silent_step|done].
Qed.

Lemma content_log ops r0 opts (e : engine A) id x r body en px c' hs os f k P m l3 en' :
  (forall r t etag enc f, valid_code (serve r t etag enc f).1.2 = true) ->
  engine_of re_ok ops r0 opts e ->
  ServeHTTP re_find sniff parse_form code e id x (arrive r body) = (en, px, c') -> starts (cn_log c') <> [] -> uses_ctx code e ->
  cn_log c' = P ++ m ++ l3 -> first_code P = None -> ruled r P m -> Forall headerly os ->
  did code hs (seqp os (ServeContent serve false f k)) m en' ->
  let h1 := fold_left hop os (headers_of P) in
  let '(hs1, n, out) := serve r (h_get h1 (L "Content-Type")) (h_get h1 (L "Etag")) (h_get h1 (L "Content-Encoding")) f in
  exists m1 m2, m = m1 ++ m2 /\ starts m1 = [] /\ rw_sent (cn_rw c') = Some (n, put_headers hs1 h1) /\
    (bodiless n -> rw_body (cn_rw c') = []) /\ (~ bodiless n -> rw_body (cn_rw c') = concat out ++ data_of (m2 ++ l3)).
Proof.
  intros Hval He H Hs Hu Hl Hf Hr Hos Hdid h1.
  destruct (did_seqp code hs os _ ltac:(eapply Forall_impl; [exact Hos|by intros []]) P m en' Hdid (proj1 Hr)) as (a0 & m0 & -> & Ha0 & D0).
  destruct (logged_facts _ _ Ha0) as (A1 & _ & A2). destruct (A2 Hos) as [A3 A4].
  assert (first_code (P ++ a0) = None) as F0 by (by rewrite first_code_app, Hf).
  assert (headers_of (P ++ a0) = h1) as G0 by (unfold headers_of, h1; by rewrite fold_left_app, A4).
  apply ruled_app in Hr. unfold ServeContent in D0.
  destruct (step_request hs r _ _ _ _ D0 Hr F0) as (a1 & m1 & -> & (S1 & F1 & G1) & D1). apply ruled_app in Hr.
  destruct (step_get hs r _ _ _ _ _ D1 Hr F1) as (a2 & m2 & -> & (S2 & F2 & G2) & D2). apply ruled_app in Hr.
  destruct (step_get hs r _ _ _ _ _ D2 Hr F2) as (a3 & m3 & -> & (S3 & F3 & G3) & D3). apply ruled_app in Hr.
  destruct (step_get hs r _ _ _ _ _ D3 Hr F3) as (a4 & m4 & -> & (S4 & F4 & G4) & D4). apply ruled_app in Hr.
  rewrite G0 in G1. rewrite G1 in G2. rewrite G2 in G3. rewrite G3 in G4. rewrite G1, G2, G3 in D4. change HeaderContentType with (L "Content-Type") in D4.
  specialize (Hval r (h_get h1 (L "Content-Type")) (h_get h1 (L "Etag")) (h_get h1 (L "Content-Encoding")) f).
  destruct (serve r (h_get h1 (L "Content-Type")) (h_get h1 (L "Etag")) (h_get h1 (L "Content-Encoding")) f) as [[hs1 n] out]. cbn [fst snd] in Hval.
  change (deliver false (hs1, n, out) k) with (seqp (map put_header hs1 ++ [OWriteHeader n] ++ map OWrite out) k) in D4.
  destruct (deliver_log _ _ _ _ _ _ _ _ _ _ _ hs (map put_header hs1) n (map OWrite out) k (((((P ++ a0) ++ a1) ++ a2) ++ a3) ++ a4) m4 l3 en' He H Hs Hu)
    as (k1 & k2 & -> & T1 & E1 & E2 & E3).
  - rewrite Hl. by lists.
  - exact F4.
  - exact D4.
  - exact (proj1 Hr).
  - apply Forall_forall. intros o Ho. by apply elem_of_list_fmap in Ho as ([k1 [v|]] & -> & _).
  - apply Forall_forall. intros o Ho. by apply elem_of_list_fmap in Ho as (d & -> & _).
  - by apply code_ok.
  - exists (a0 ++ a1 ++ a2 ++ a3 ++ a4 ++ k1), k2. split; [by lists|]. split.
    { by rewrite !starts_app, A1, S1, S2, S3, S4, T1. }
    split; [|split; [done|]].
    + rewrite E1, G4. f_equal. f_equal. clear. generalize h1. induction hs1 as [|[key [v|]] hs1 IH]; intros h; [done|apply IH|apply IH].
    + intros Hb. rewrite (E3 Hb), map_map. cbn [op_data]. by rewrite map_id.
Qed.

Lemma attach_behind ops r0 opts (e : engine A) id x r body en px c' (download : bool) name inline f k i l1 l2 :
  (forall r t etag enc f, 100 <= (serve r t etag enc f).1.2 <= 999) ->
  engine_of re_ok ops r0 opts e ->
  ServeHTTP re_find sniff parse_form code e id x (arrive r body) = (en, px, c') -> uses_ctx code e ->
  (forall hs, dispatched re_ok re_find e r hs -> exists g, hs !! i = Some g /\
     code g = if download then Download serve (Some (name, f)) inline (fun _ => k) else Attachment serve name inline f k) ->
  cn_log c' = l1 ++ EvStart i :: l2 -> ~ responded l1 ->
  exists h1,
    (if download then download_over (contentDisposition name (disposition inline)) (headers_of l1) h1
     else attachment_over (contentDisposition name (disposition inline)) (headers_of l1) h1) /\
    let '(hs, n, out) := serve r (h_get h1 (L "Content-Type")) (h_get h1 (L "Etag")) (h_get h1 (L "Content-Encoding")) f in
    exists m l3, l2 = m ++ l3 /\ starts m = [] /\ rw_sent (cn_rw c') = Some (n, put_headers hs h1) /\
      (bodiless n -> rw_body (cn_rw c') = []) /\ (~ bodiless n -> rw_body (cn_rw c') = concat out ++ data_of l3).
Proof.
  intros Hval He H Hu Hd Hl Hn.
  destruct (turn_log _ _ _ _ _ _ _ _ _ _ _ (fun q => q = if download then Download serve (Some (name, f)) inline (fun _ => k) else Attachment serve name inline f k)
    i l1 l2 He H Hd Hl) as (hs & p & m & l3 & en' & -> & -> & Hdid & R1 & R2).
  assert (exists os, (if download then Download serve (Some (name, f)) inline (fun _ => k) else Attachment serve name inline f k) = seqp os (ServeContent serve false f k) /\
    Forall headerly os /\ forall h0,
    if download then download_over (contentDisposition name (disposition inline)) h0 (fold_left hop os h0)
    else attachment_over (contentDisposition name (disposition inline)) h0 (fold_left hop os h0)) as (os & Hp & Hos & Hh).
  { clear. destruct download; (eexists; split; [reflexivity|]); (split; [by repeat constructor|]); intros h0; cbn [fold_left];
      unfold download_over, attachment_over, same_but, HeaderContentDisposition; split_and!;
      try (rewrite !h_values_hop; reflexivity);
      intros key Hk; rewrite !h_values_hop, !(seqb_other key _ _ Hk) by (vm_compute; reflexivity); done. }
  rewrite Hp in Hdid. exists (fold_left hop os (headers_of l1)). split; [apply Hh|].
  pose proof (content_log _ _ _ _ _ _ _ _ _ _ _ hs os f k (l1 ++ [EvStart i]) m l3 en'
    (fun r t etag enc f => proj2 (code_ok _) (Hval r t etag enc f)) He H (started _ _ _ _ Hl) Hu) as HC. cbv zeta in HC.
  rewrite headers_of_snoc in HC. cbn [hdr_step] in HC.
  destruct (serve r _ _ _ f) as [[hs1 n] out]. destruct HC as (m1 & m2 & -> & S1 & E1 & E2 & E3); try done.
  - rewrite Hl. by lists.
  - rewrite first_code_app. by rewrite (fresh_code _ Hn).
  - exists m1, (m2 ++ l3). split_and!; [by lists|done..].
Qed.
End Attachment.
End Engine.
