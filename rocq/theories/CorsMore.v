(** CORS behind other handlers, by the log. *)
From Verif Require Import Base GoStr GoStrFacts Strconv Pattern Tree TreeSpec Header Router Ctx CtxFacts TraceSpec Engine EngineSpec
  ServeFacts ServeProps ServeTop ServeThms ServeDispatch Content ContentFacts Middleware MiddlewareSpec RecoveryFacts
  HttpFacts CorsFacts.
Local Open Scope Z_scope.

Ltac lists := repeat first [rewrite <- app_assoc | rewrite <- app_comm_cons]; reflexivity.

Section Rule.
Context {A V : Type}.
Variable sniff : gostr -> gostr.
Variable parse_form : bool -> request -> gostr * bool -> gmap gostr (list gostr) * bool * gostr.

(** calls on Header() return *)
Definition head_rule (_ : list (event V)) (ev : event V) : Prop :=
  match ev with
  | EvCall o a => headerly o -> match a with Norm _ => True | Throw _ => False end
  | _ => True
  end.
Lemma head_invariant : invariant (A:=A) sniff parse_form (fun _ : op V => True)
  (fun x c => True /\ hist head_rule (cn_log c)) (fun x c => True /\ hist head_rule (cn_log c)).
Proof.
  apply (rule_invariant _ _ _ _ (fun _ _ => True)); [by intros l []|done|done|].
  intros o x c rr x' c' w _ _ H Hw Hl. split; [done|]. apply call_eq in H as (c1 & Hd & _). unfold head_rule.
  destruct o; try (by intros []); simpl in Hd; inversion Hd; subst; done.
Qed.
End Rule.

Lemma wire_quiet {V} (w : list (event V)) : Forall on_wire w ->
  starts w = [] /\ (forall l, first_code (l ++ w) = first_code l) /\ (forall h, fold_left hdr_step w h = h).
Proof.
  intros Hw. split; [|split].
  - induction Hw as [|ev w Hev _ IH]; [done|]. change (ev :: w) with ([ev] ++ w). rewrite starts_app, IH. by destruct ev.
  - intros l. apply first_code_wire. eapply Forall_impl; [exact Hw|]. by intros [].
  - induction Hw as [|ev w Hev _ IH]; intros h; [done|]. cbn [fold_left]. rewrite IH. by destruct ev.
Qed.

Section Prog.
Context {A V : Type}.
Variable code : handler A -> prog V.
Variable hs : list (handler A).

(** the log of calls on Header() *)
Lemma did_headers os k : Forall headerly os -> forall m en, did code hs (seqp os k) m en ->
  (forall l1 ev l2, m = l1 ++ ev :: l2 -> head_rule [] ev) ->
  exists m1 m2, m = m1 ++ m2 /\ did code hs k m2 en /\ starts m1 = [] /\ first_code m1 = None /\
    forall h, fold_left hdr_step m1 h = fold_left hop os h.
Proof.
  induction 1 as [|o os Ho _ IH]; intros m en Hd Hr.
  - by exists [], m.
  - apply did_do in Hd as [(w & a & l & Hw & -> & Hd)|(w & v & Hw & -> & ->)].
    + destruct (IH l en Hd) as (m1 & m2 & -> & H2 & H3 & H4 & H5).
      { intros l1 ev l2 E. apply (Hr (w ++ EvCall o (Norm a) :: l1) ev l2). rewrite E. by lists. }
      destruct (wire_quiet w Hw) as (W1 & W2 & W3).
      exists (w ++ EvCall o (Norm a) :: m1), m2. split_and!; [by lists|done|..].
      * change (EvCall o (Norm a) :: m1) with ([EvCall o (Norm a)] ++ m1). by rewrite !starts_app, W1, H3.
      * change (EvCall o (Norm a) :: m1) with ([EvCall o (Norm a)] ++ m1). rewrite !first_code_app, H4.
        change (first_code w) with (first_code ([] ++ w)). rewrite W2, first_code_one. by destruct o.
      * intros h. rewrite fold_left_app, W3. cbn [fold_left]. rewrite H5. by destruct o.
    + exfalso. by apply (Hr w _ [] eq_refl).
Qed.
End Prog.

Section Over.
Context {V : Type}.
Variables (cfg : CORSConfig) (r : request).
Local Notation op := (op V).

Ltac canons := repeat match goal with |- context [seqb (canon (L ?a)) (canon (L ?b))] =>
  let v := eval vm_compute in (seqb (canon (L a)) (canon (L b))) in change (seqb (canon (L a)) (canon (L b))) with v end.
Ltac vals := repeat (rewrite h_values_hop; canons; cbn iota).

Definition creds : list op :=
  if AllowCredentials cfg then [OHeaderSet (L "Access-Control-Allow-Credentials") (L "true")] else [].
Definition simple_ops : list op :=
  [OHeaderAdd (L "Vary") (L "Origin");
   OHeaderSet (L "Access-Control-Allow-Origin") (allow_origin (origins_of cfg) (h_get (rq_header r) (L "Origin")))] ++ creds ++
  (if seqb (join (L ",") (ExposeHeaders cfg)) [] then []
   else [OHeaderSet (L "Access-Control-Expose-Headers") (join (L ",") (ExposeHeaders cfg))]).
Definition preflight_ops : list op :=
  [OHeaderAdd (L "Vary") (L "Origin");
   OHeaderAdd (L "Vary") (L "Access-Control-Request-Method");
   OHeaderAdd (L "Vary") (L "Access-Control-Request-Headers");
   OHeaderSet (L "Access-Control-Allow-Origin") (allow_origin (origins_of cfg) (h_get (rq_header r) (L "Origin")));
   OHeaderSet (L "Access-Control-Allow-Methods") (join (L ",") (methods_of cfg))] ++ creds ++
  (if negb (seqb (join (L ",") (AllowHeaders cfg)) []) then [OHeaderSet (L "Access-Control-Allow-Headers") (join (L ",") (AllowHeaders cfg))]
   else if negb (seqb (h_get (rq_header r) (L "Access-Control-Request-Headers")) [])
        then [OHeaderSet (L "Access-Control-Allow-Headers") (h_get (rq_header r) (L "Access-Control-Request-Headers"))] else []) ++
  (if 0 <? MaxAge cfg then [OHeaderSet (L "Access-Control-Max-Age") (itoa (MaxAge cfg))] else []).


Lemma simple_headerly : Forall headerly simple_ops.
Proof. unfold simple_ops, creds. rewrite !Forall_app. split_and!; [by repeat constructor|destruct (AllowCredentials cfg); by repeat constructor|]. destruct (seqb _ _); by repeat constructor. Qed.
Lemma preflight_headerly : Forall headerly preflight_ops.
Proof.
  unfold preflight_ops, creds. rewrite !Forall_app. split_and!.
  - by repeat constructor.
  - destruct (AllowCredentials cfg); by repeat constructor.
  - destruct (negb _); [by repeat constructor|]. destruct (negb _); by repeat constructor.
  - destruct (0 <? _); by repeat constructor.
Qed.

(** the values of a key after the calls: one call at a time, the last one first *)
Lemma values_snoc (h : header) os (o : op) k : h_values (fold_left hop (os ++ [o]) h) k =
  match o with
  | OHeaderSet k' v => if seqb (canon k') (canon k) then [v] else h_values (fold_left hop os h) k
  | OHeaderAdd k' v => if seqb (canon k') (canon k) then h_values (fold_left hop os h) k ++ [v] else h_values (fold_left hop os h) k
  | OHeaderDel k' => if seqb (canon k') (canon k) then [] else h_values (fold_left hop os h) k
  | _ => h_values (fold_left hop os h) k
  end.
Proof. rewrite fold_left_app. cbn [fold_left]. apply h_values_hop. Qed.
Lemma seqb_other k n (l : list gostr) : canon k ∉ l -> existsb (seqb (canon n)) l = true -> seqb (canon n) (canon k) = false.
Proof.
  intros H1 H2. apply seqb_false. intros E. apply H1. rewrite <- E. apply existsb_exists in H2 as (y & Hy & Hq).
  apply seqb_true in Hq as ->. by apply elem_of_list_In.
Qed.

Lemma simple_over h0 : cors_simple_over cfg r h0 (fold_left hop simple_ops h0).
Proof.
  unfold simple_ops, creds. rewrite !fold_left_app.
  unfold cors_simple_over, cors_origin_over, listed_over.
  destruct (seqb (join (L ",") (ExposeHeaders cfg)) []) eqn:E1; [apply seqb_true in E1|apply seqb_false in E1];
    (destruct (AllowCredentials cfg); cbn [fold_left]; (split_and!;
      [ eexists; split; [vals; reflexivity|apply allow_origin_announced]
      | vals; done
      | vals; done
      | vals; (rewrite decide_True by done) || (rewrite decide_False by done); done
      | intros k Hk; rewrite !h_values_hop;
        repeat match goal with |- context [seqb (canon (L ?a)) (canon k)] => rewrite (seqb_other k (L a) _ Hk) by (vm_compute; reflexivity) end; done ])).
Qed.
(** calls on one header leave the others alone *)
Lemma skip n os (h : header) k : Forall (fun o : op => exists v, o = OHeaderSet n v) os -> seqb (canon n) (canon k) = false ->
  h_values (fold_left hop os h) k = h_values h k.
Proof. intros Hos Hk. revert h. induction Hos as [|o os (v & ->) _ IH]; intros h; [done|]. cbn [fold_left]. rewrite IH, h_values_hop. by rewrite Hk. Qed.
Lemma preflight_over h0 : cors_preflight_over cfg r h0 (fold_left hop preflight_ops h0).
Proof.
  unfold preflight_ops. rewrite !fold_left_app. set (cr := creds).
  match goal with |- context [if negb ?a then ?x else ?y] => set (ah := if negb a then x else y) end.
  match goal with |- context [if 0 <? MaxAge cfg then ?x else ?y] => set (ma := if 0 <? MaxAge cfg then x else y) end.
  assert (H1 : Forall (fun o : op => exists v, o = OHeaderSet (L "Access-Control-Allow-Credentials") v) cr).
  { unfold cr, creds. destruct (AllowCredentials cfg); repeat constructor; by eexists. }
  assert (H2 : Forall (fun o : op => exists v, o = OHeaderSet (L "Access-Control-Allow-Headers") v) ah).
  { unfold ah. destruct (negb _); [repeat constructor; by eexists|]. destruct (negb _); repeat constructor; by eexists. }
  assert (H3 : Forall (fun o : op => exists v, o = OHeaderSet (L "Access-Control-Max-Age") v) ma).
  { unfold ma. destruct (0 <? _); repeat constructor; by eexists. }
  unfold cors_preflight_over, cors_origin_over, listed_over. split_and!.
  - eexists. split; [|apply allow_origin_announced].
    rewrite (skip _ ma _ _ H3), (skip _ ah _ _ H2), (skip _ cr _ _ H1) by (vm_compute; reflexivity). cbn [fold_left]. vals. reflexivity.
  - rewrite (skip _ ma _ _ H3), (skip _ ah _ _ H2) by (vm_compute; reflexivity). unfold cr, creds.
    destruct (AllowCredentials cfg); cbn [fold_left]; vals; reflexivity.
  - rewrite (skip _ ma _ _ H3), (skip _ ah _ _ H2), (skip _ cr _ _ H1) by (vm_compute; reflexivity). cbn [fold_left]. vals. by rewrite <- !app_assoc.
  - rewrite (skip _ ma _ _ H3), (skip _ ah _ _ H2), (skip _ cr _ _ H1) by (vm_compute; reflexivity). cbn [fold_left]. vals. reflexivity.
  - rewrite (skip _ ma _ _ H3) by (vm_compute; reflexivity).
    change (join (L ",") [h_get (rq_header r) (L "Access-Control-Request-Headers")]) with (h_get (rq_header r) (L "Access-Control-Request-Headers")).
    unfold ah. destruct (seqb (join (L ",") (AllowHeaders cfg)) []) eqn:E1; [apply seqb_true in E1|apply seqb_false in E1]; cbn [negb].
    + rewrite decide_True by done.
      destruct (seqb (h_get (rq_header r) (L "Access-Control-Request-Headers")) []) eqn:E2; [apply seqb_true in E2|apply seqb_false in E2]; cbn [negb].
      * rewrite decide_True by done. cbn [fold_left]. rewrite (skip _ cr _ _ H1) by (vm_compute; reflexivity). cbn [fold_left]. by vals.
      * rewrite decide_False by done. cbn [fold_left]. rewrite h_values_hop. canons. done.
    + rewrite decide_False by done. cbn [fold_left]. rewrite h_values_hop. canons. done.
  - unfold ma. destruct (0 <? MaxAge cfg) eqn:E3; [apply Z.ltb_lt in E3|apply Z.ltb_ge in E3].
    + rewrite decide_True by done. cbn [fold_left]. rewrite h_values_hop. canons. done.
    + rewrite decide_False by lia. cbn [fold_left]. rewrite (skip _ ah _ _ H2), (skip _ cr _ _ H1) by (vm_compute; reflexivity). cbn [fold_left]. by vals.
  - intros k Hk. assert (Ho := fun n => seqb_other k n _ Hk).
    rewrite (skip _ ma _ _ H3), (skip _ ah _ _ H2), (skip _ cr _ _ H1) by (apply Ho; vm_compute; reflexivity).
    cbn [fold_left]. rewrite !h_values_hop, !Ho by (vm_compute; reflexivity). done.
Qed.
End Over.

Section Engine.
Context {A V : Type}.
Variable re_ok : gostr -> bool.
Variable re_find : gostr -> gostr -> option (list gostr).
Variable sniff : gostr -> gostr.
Variable parse_form : bool -> request -> gostr * bool -> gmap gostr (list gostr) * bool * gostr.
Variable code : handler A -> prog V.

(** what the program of CORS leaves in the log *)
Lemma cors_log ops r0 opts (e : engine A) id x r body en px c' cfg i l1 l2 :
  engine_of re_ok ops r0 opts e ->
  ServeHTTP re_find sniff parse_form code e id x (arrive r body) = (en, px, c') ->
  (forall hs, dispatched re_ok re_find e r hs -> exists g, hs !! i = Some g /\ code g = CORS cfg) ->
  cn_log c' = l1 ++ EvStart i :: l2 ->
  exists hs m1 m2 en' l3, l2 = m1 ++ m2 ++ l3 /\ starts m1 = [] /\ first_code m1 = None /\
    (en' = EDone -> exists l4, l3 = EvEnd i :: l4) /\
    ((rq_method r <> L "OPTIONS" /\ did code hs (PNext PRet) m2 en' /\
      cors_simple_over cfg r (headers_of l1) (headers_of (l1 ++ EvStart i :: m1))) \/
     (rq_method r = L "OPTIONS" /\ did code hs (PDo (OWriteHeader 204) (fun _ => PRet)) m2 en' /\
      cors_preflight_over cfg r (headers_of l1) (headers_of (l1 ++ EvStart i :: m1)))).
Proof.
  intros He H Hd Hl.
  destruct (dispatched_ran re_ok re_find sniff parse_form _ _ _ _ _ _ _ _ _ _ _ _ He H)
    as [(n & -> & -> & _)|(_ & hs & ps & n & Hdis & Hran)]; [by destruct l1 as [|? []]|].
  destruct (Hd _ Hdis) as (g & Hg & Hcode).
  assert (hist (request_rule r) (cn_log c')) as Hreq.
  { destruct (ran_inv _ _ _ _ _ _ _ _ _ _ _ Hran _ _ _ (request_invariant sniff parse_form r)) as (x' & (_ & Hh) & _);
      [intros h _; apply only_any|split; [done|apply hist_nil]|done]. }
  assert (hist head_rule (cn_log c')) as Hhead.
  { destruct (ran_inv _ _ _ _ _ _ _ _ _ _ _ Hran _ _ _ (head_invariant sniff parse_form)) as (x' & (_ & Hh) & _);
      [intros h _; apply only_any|split; [done|apply hist_nil]|done]. }
  pose proof (ran_turns _ _ _ _ _ _ _ _ _ _ _ Hran) as Ht.
  destruct (proj2 (called_code _ hs) _ _ Ht _ _ _ Hl) as (h & m & en' & l3 & Hh & -> & Hdid & Hend).
  assert (h = g) as -> by congruence. rewrite Hcode in Hdid. unfold CORS in Hdid. rewrite origins_eq, methods_eq in Hdid. cbn zeta in Hdid.
  apply did_do in Hdid as [(w & b & l & Hw & -> & Hdid)|(w & v & Hw & -> & ->)].
  2: { specialize (Hreq (l1 ++ EvStart i :: w) (EvCall ORequest (Throw v)) l3). exfalso. discriminate Hreq. rewrite Hl. by lists. }
  assert (b = r) as ->.
  { specialize (Hreq (l1 ++ EvStart i :: w) (EvCall ORequest (Norm b)) (l ++ l3)).
    assert (Norm (X:=request) b = Norm r) as E; [apply Hreq; rewrite Hl; by lists|]. by injection E. }
  assert (Hr : forall k1 ev k2, l = k1 ++ ev :: k2 -> head_rule [] ev).
  { intros k1 ev k2 E. apply (Hhead (l1 ++ EvStart i :: w ++ EvCall ORequest (Norm r) :: k1) ev (k2 ++ l3)).
    rewrite Hl, E. by lists. }
  destruct (wire_quiet w Hw) as (W1 & W2 & W3).
  assert (Hpre : forall m1, starts m1 = [] -> first_code m1 = None ->
    starts (w ++ EvCall ORequest (Norm r) :: m1) = [] /\ first_code (w ++ EvCall ORequest (Norm r) :: m1) = None).
  { intros m1 H1 H2. change (EvCall ORequest (Norm r) :: m1) with ([EvCall (V:=V) ORequest (Norm r)] ++ m1).
    rewrite !starts_app, !first_code_app, W1, H1, H2. change (first_code w) with (first_code ([] ++ w)). by rewrite W2. }
  assert (Hhdr : forall m1, headers_of (l1 ++ EvStart i :: w ++ EvCall ORequest (Norm r) :: m1) = fold_left hdr_step m1 (headers_of l1)).
  { intros m1. unfold headers_of. rewrite fold_left_app. cbn [fold_left]. rewrite fold_left_app. cbn [fold_left hdr_step].
    change (hdr_step (fold_left hdr_step l1 ∅) (EvStart i)) with (fold_left (hdr_step (V:=V)) l1 ∅). by rewrite W3. }
  destruct (seqb (rq_method r) (L "OPTIONS")) eqn:Hm; cbn [negb] in Hdid.
  - apply seqb_true in Hm. rewrite !(app_assoc _ _ [_]), seqp_app in Hdid.
    apply (did_headers code hs (preflight_ops cfg r) _ (preflight_headerly cfg r)) in Hdid as (m1 & m2 & -> & Hd2 & H3 & H4 & H5); [|done].
    exists hs, (w ++ EvCall ORequest (Norm r) :: m1), m2, en', l3. destruct (Hpre m1 H3 H4) as [P1 P2].
    split_and!; [by lists|done|done|done|]. right. split; [done|]. split; [exact Hd2|]. rewrite Hhdr, H5. apply preflight_over.
  - apply seqb_false in Hm.
    apply (did_headers code hs (simple_ops cfg r) _ (simple_headerly cfg r)) in Hdid as (m1 & m2 & -> & Hd2 & H3 & H4 & H5); [|done].
    exists hs, (w ++ EvCall ORequest (Norm r) :: m1), m2, en', l3. destruct (Hpre m1 H3 H4) as [P1 P2].
    split_and!; [by lists|done|done|done|]. left. split; [done|]. split; [exact Hd2|]. rewrite Hhdr, H5. apply simple_over.
Qed.

Lemma cors_behind ops r0 opts (e : engine A) id x r body en px c' cfg i l1 l2 :
  engine_of re_ok ops r0 opts e ->
  ServeHTTP re_find sniff parse_form code e id x (arrive r body) = (en, px, c') ->
  (forall hs, dispatched re_ok re_find e r hs -> exists g, hs !! i = Some g /\ code g = CORS cfg) ->
  cn_log c' = l1 ++ EvStart i :: l2 -> rq_method r <> L "OPTIONS" ->
  exists m l3, l2 = m ++ EvNext :: l3 /\ starts m = [] /\ ~ responded m /\
    cors_simple_over cfg r (headers_of l1) (headers_of (l1 ++ EvStart i :: m)).
Proof.
  intros He H Hd Hl Hm.
  destruct (cors_log _ _ _ _ _ _ _ _ _ _ _ _ _ _ _ He H Hd Hl) as (hs & m1 & m2 & en' & l3 & -> & H1 & H2 & _ & [(_ & Hdid & Ho)|(E & _)]); [|done].
  assert (exists m3, m2 = EvNext :: m3) as [m3 ->].
  { assert (forall p, did code hs p m2 en' -> match p with PNext _ => exists m3, m2 = EvNext :: m3 | _ => True end) as Hn; [|exact (Hn _ Hdid)].
    destruct 1; try done; by eexists. }
  exists m1, (m3 ++ l3). split_and!; try done. by rewrite responded_iff, H2.
Qed.

Lemma cors_behind_preflight ops r0 opts (e : engine A) id x r body en px c' cfg i l1 l2 :
  engine_of re_ok ops r0 opts e ->
  ServeHTTP re_find sniff parse_form code e id x (arrive r body) = (en, px, c') -> uses_ctx code e ->
  (forall hs, dispatched re_ok re_find e r hs -> exists g, hs !! i = Some g /\ code g = CORS cfg) ->
  cn_log c' = l1 ++ EvStart i :: l2 -> rq_method r = L "OPTIONS" -> ~ responded l1 ->
  exists m l3 h, l2 = m ++ EvEnd i :: l3 /\ starts m = [] /\ finish sniff (cn_rw c') = (204, h, []) /\
    cors_preflight_over cfg r (headers_of l1) h.
Proof.
  intros He H Hu Hd Hl Hm Hn.
  destruct (cors_log _ _ _ _ _ _ _ _ _ _ _ _ _ _ _ He H Hd Hl) as (hs & m1 & m2 & en' & l3 & -> & H1 & H2 & H3 & [(E & _)|(_ & Hdid & Ho)]); [done|].
  assert (first_code l1 = None) as Hf.
  { rewrite responded_iff in Hn. destruct (first_code l1); [|done]. by destruct Hn; eexists. }
  assert (starts (cn_log c') <> []) as Hs.
  { rewrite Hl, starts_app. intros E. apply app_eq_nil in E as [_ E]. discriminate E. }
  assert (Hx : forall w (a : outcome (ans (OWriteHeader (V:=V) 204))) k, m2 = w ++ EvCall (OWriteHeader 204) a :: k -> Forall on_wire w ->
    a = Norm tt /\ rw_sent (cn_rw c') = Some (204, headers_of (l1 ++ EvStart i :: m1)) /\ rw_body (cn_rw c') = []).
  { intros w a k -> Hw. destruct (wire_quiet w Hw) as (W1 & W2 & W3).
    destruct (explicit_header re_ok re_find sniff parse_form code _ _ _ _ _ _ _ _ _ _ _ (l1 ++ EvStart i :: m1 ++ w) 204 a (k ++ l3) He H Hs Hu) as (_ & E1 & E2 & E3 & _).
    - rewrite Hl. by lists.
    - change (EvStart i :: m1 ++ w) with ([EvStart (V:=V) i] ++ m1 ++ w). rewrite !app_assoc, W2, !first_code_app, Hf, H2. done.
    - lia.
    - split; [done|]. split; [|apply E3; vm_compute; by auto]. rewrite E2. f_equal. f_equal.
      unfold headers_of. change (l1 ++ EvStart i :: m1 ++ w) with (l1 ++ (EvStart i :: m1) ++ w). rewrite app_assoc, fold_left_app. by rewrite W3. }
  apply did_do in Hdid as [(w & b & l & Hw & -> & Hdid)|(w & v & Hw & -> & ->)].
  2: { destruct (Hx w (Throw v) [] eq_refl Hw) as [E _]. discriminate E. }
  destruct (Hx w (Norm b) l eq_refl Hw) as (_ & E1 & E2).
  assert (l = [] /\ en' = EDone) as [-> ->].
  { assert (forall p, did code hs p l en' -> match p with PRet => l = [] /\ en' = EDone | _ => True end) as Hr; [|exact (Hr _ Hdid)]. by destruct 1. }
  destruct (H3 eq_refl) as [l4 ->]. exists (m1 ++ w ++ [EvCall (OWriteHeader 204) (Norm b)]), l4. eexists.
  split; [by lists|]. split. { rewrite !starts_app, H1. by rewrite (proj1 (wire_quiet w Hw)). }
  split; [|exact Ho]. unfold finish. by rewrite E1, E2.
Qed.
End Engine.
