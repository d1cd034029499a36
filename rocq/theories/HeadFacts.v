(** HEAD and GET get the same status and headers. *)
From Verif Require Import Base GoStr Strconv Pattern Tree TreeSpec Header Router RouterSpec PathClean Ctx CtxFacts Util UtilSpec Content
  UtilFacts TraceSpec Engine EngineSpec ServeFacts ServeProps ServeTop ServeDispatch ServeThms ServeMore Sim LastingSpec ParamSpec ServeParams
  StaticReg Static StaticSpec StaticFacts StaticTop NetServe NetFile NetRange NetRedirect FileSpec FileFacts ContentFacts NetRangeFacts RangeTop NetHead HeadSpec.
Local Open Scope Z_scope.

(** ** Handlers that do not look at the method *)
Section Blind.
Context {A V : Type}.
Variable sniff : gostr -> gostr.
Variable parse_form : bool -> request -> gostr * bool -> gmap gostr (list gostr) * bool * gostr.
Variable code : handler A -> prog V.
Variables (m : gostr) (id : nat).
Implicit Types x : ctxobj A V.
Implicit Types c : conn V.
Local Notation do_op := (do_op sniff parse_form).
Local Notation call := (call sniff parse_form).
Local Notation pexec := (pexec sniff parse_form).
Local Notation crun := (crun sniff parse_form code).
Local Notation runc := (runc sniff parse_form code).

Definition other c (l : list (event V)) : conn V := mkConn (with_method m (cn_req c)) (cn_rw c) (cn_body c) (cn_form c) l.
(** forms are parsed alike *)
Definition like_form (r : request) : Prop :=
  is_multipart (with_method m r) = is_multipart r /\ forall b d, parse_form b (with_method m r) d = parse_form b r d.

Lemma raw_WriteHeader_other n c l : exists o c' l', raw_WriteHeader n c = (o, c') /\ raw_WriteHeader n (other c l) = (o, other c' l') /\ cn_req c' = cn_req c.
Proof.
  rewrite !raw_WriteHeader_spec. cbn [other cn_rw]. destruct (rw_sent (cn_rw c)); [by eexists _, _, _|].
  destruct (valid_code n); by eexists _, _, _.
Qed.
Lemma raw_Write_other b c l : exists l', raw_Write b (other c l) = other (raw_Write b c) l' /\ cn_req (raw_Write b c) = cn_req c.
Proof.
  exists (l ++ [EvData b]). unfold raw_Write. cbn [other log cn_rw]. destruct (rw_sent (cn_rw c)) as [[n h]|].
  - cbn iota. destruct (rw_sent (cn_rw c)) as [[n' h']|]; [|done]. by destruct (body_allowed n').
  - cbn. done.
Qed.
Lemma ctx_WriteHeader_other n x c l : exists o x' c' l', ctx_WriteHeader n x c = (o, (x', c')) /\
  ctx_WriteHeader n (set_conn x id) (other c l) = (o, (set_conn x' id, other c' l')) /\ cn_req c' = cn_req c.
Proof.
  unfold ctx_WriteHeader. change (x_written (set_conn x id)) with (x_written x). destruct (x_written x) eqn:Hw; [by eexists _, _, _, _|].
  destruct (raw_WriteHeader_other n c l) as (o & c' & l' & H1 & H2 & H3). rewrite H1, H2. by eexists _, _, _, _.
Qed.
Lemma do_op_other o x c l : o <> ORequest -> like_form (cn_req c) -> exists r x' c' l', do_op o x c = (r, (x', c')) /\
  do_op o (set_conn x id) (other c l) = (r, (set_conn x' id, other c' l')) /\ cn_req c' = cn_req c.
Proof.
  intros Ho Hf.
  destruct o; cbn [Ctx.do_op set_conn x_end x_params x_env x_parsed x_written x_status other cn_rw cn_req cn_body cn_form];
    try done; try (eexists _, _, _, _; split_and!; (reflexivity || done)).
  - apply ctx_WriteHeader_other.
  - unfold ctx_Write. change (x_written (set_conn x id)) with (x_written x). destruct (x_written x) eqn:Hw; cbn [negb].
    + destruct (raw_Write_other data c l) as (l' & -> & ?). by eexists _, _, _, _.
    + cbn [other cn_rw].
      set (g := negb (length data =? 0)%nat && seqb (h_get (rw_hdr (cn_rw c)) (L "Content-Type")) []).
      set (c1 := if g then set_hdr c (h_set (rw_hdr (cn_rw c)) (L "Content-Type") (sniff data)) else c).
      replace (if g then set_hdr (other c l) (h_set (rw_hdr (cn_rw c)) (L "Content-Type") (sniff data)) else other c l)
        with (other c1 l) by (unfold c1; by destruct g).
      assert (cn_req c1 = cn_req c) as Hc1 by (unfold c1; by destruct g).
      destruct (ctx_WriteHeader_other 200 x c1 l) as (o & x' & c' & l' & H1 & H2 & H3). rewrite H1, H2.
      destruct o as [[]|v].
      * destruct (raw_Write_other data c' l') as (l2 & -> & H4). eexists _, _, _, _. split_and!; [reflexivity|reflexivity|congruence].
      * eexists _, _, _, _. split_and!; [reflexivity|reflexivity|congruence].
  - destruct (raw_WriteHeader_other code0 c l) as (o & c' & l' & H1 & H2 & H3). rewrite H1, H2. by eexists _, _, _, _.
  - destruct (raw_Write_other data c l) as (l' & -> & ?). by eexists _, _, _, _.
  - destruct (x_end x) as [[? [rt|]]|]; eexists _, _, _, _; split_and!; (reflexivity || done).
  - destruct (x_params x); eexists _, _, _, _; split_and!; (reflexivity || done).
  - destruct (x_env x) as [m'|]; [destruct (m' !! name)|]; eexists _, _, _, _; split_and!; (reflexivity || done).
  - destruct (x_env x ≫= _); eexists _, _, _, _; split_and!; (reflexivity || done).
  - destruct (x_env x) as [m'|]; eexists _, _, _, _; split_and!; (reflexivity || done).
  - destruct (x_parsed x); [eexists _, _, _, _; split_and!; (reflexivity || done)|].
    destruct Hf as [Hf1 Hf2]. rewrite Hf1, Hf2.
    destruct (parse_form _ _ _) as [[f ok] rest]. cbn [cn_req cn_rw cn_body cn_form]. rewrite ?Hf1. destruct ok; eexists _, _, _, _; split_and!; (reflexivity || done).
Qed.
Definition alike (hs : list (handler A)) (f g : ctxobj A V -> conn V -> ending * (ctxobj A V * conn V)) : Prop :=
  forall x c l, x_handlers x = hs -> like_form (cn_req c) -> exists r x' c' l',
    f x c = (r, (x', c')) /\ g (set_conn x id) (other c l) = (r, (set_conn x' id, other c' l')) /\ cn_req c' = cn_req c /\ x_handlers x' = hs.
Lemma pexec_other hs f g p : method_blind p -> alike hs f g -> alike hs (pexec f p) (pexec g p).
Proof.
  intros Hp Hfg. induction p as [|v|o k IH|k IH|b IHb k IH]; intros x c l Hh Hl; cbn [Ctx.pexec]; cbn [method_blind] in Hp.
  - by eexists _, _, _, _.
  - by eexists _, _, _, _.
  - destruct Hp as [Ho Hp].
    assert (o = ORequest \/ o <> ORequest) as [->|Hn] by (destruct o; (by left) || by right).
    + unfold Ctx.call. cbn [Ctx.do_op]. cbn [overlooks] in Ho. change (cn_req (other c l)) with (with_method m (cn_req c)). rewrite Ho.
      destruct (IH (cn_req c) (Hp _) x (log c (EvCall ORequest (Norm (cn_req c)))) (l ++ [EvCall ORequest (Norm (with_method m (cn_req c)))]) Hh Hl)
        as (r & x' & c' & l' & H1 & H2 & H3 & H4).
      eexists _, _, _, _. split_and!; [exact H1|exact H2|exact H3|exact H4].
    + destruct (call o x c) as [r0 [x0 c0]] eqn:Hc. pose proof (call_run _ _ _ _ _ _ _ _ Hc) as [S1 _ _ _ _ _].
      destruct (do_op_other o x c l Hn Hl) as (r & x1 & c1 & l1 & H1 & H2 & H3). unfold Ctx.call in Hc |- *. rewrite H1 in Hc. rewrite H2.
      apply pair_equal_spec in Hc as [<- Hc]. apply pair_equal_spec in Hc as [<- <-]. destruct r as [a|v].
      * destruct (IH a (Hp a) x1 (log c1 (EvCall o (Norm a))) (l1 ++ [EvCall o (Norm a)])) as (r & x' & c' & l' & J1 & J2 & J3 & J4);
          [congruence|cbn [log cn_req]; by rewrite H3|].
        eexists _, _, _, _. split_and!; [exact J1|exact J2| |exact J4]. cbn [log cn_req] in J3. congruence.
      * eexists _, _, (log c1 (EvCall o (Throw v))), (l1 ++ [EvCall o (Throw v)]). split_and!; [done|done|done|congruence].
  - destruct (Hfg x c l Hh Hl) as (r & x1 & c1 & l1 & H1 & H2 & H3 & H4). rewrite H1, H2. destruct r as [|v|]; [|by eexists _, _, _, _..].
    rewrite <- H3 in Hl. destruct (IH Hp x1 c1 l1 H4 Hl) as (r & x2 & c2 & l2 & J1 & J2 & J3 & J4). eexists _, _, _, _. split_and!; [exact J1|exact J2|congruence|done].
  - destruct Hp as [Hb Hk]. destruct (IHb Hb x c l Hh Hl) as (r & x1 & c1 & l1 & H1 & H2 & H3 & H4). rewrite H1, H2. rewrite <- H3 in Hl. destruct r as [|v|]; [| |by eexists _, _, _, _].
    + destruct (IH None (Hk _) x1 c1 l1 H4 Hl) as (r & x2 & c2 & l2 & J1 & J2 & J3 & J4). eexists _, _, _, _. split_and!; [exact J1|exact J2|congruence|done].
    + destruct (IH (Some v) (Hk _) x1 c1 l1 H4 Hl) as (r & x2 & c2 & l2 & J1 & J2 & J3 & J4). eexists _, _, _, _. split_and!; [exact J1|exact J2|congruence|done].
Qed.
Lemma crun_other hs fuel : (forall h, h ∈ hs -> method_blind (code h)) -> alike hs (crun fuel) (crun fuel).
Proof.
  intros Hb. induction fuel as [|fuel IH]; intros x c l Hh Hl; cbn [Ctx.crun];
    change (x_index (set_conn x id)) with (x_index x); change (x_hlen (set_conn x id)) with (x_hlen x); change (x_handlers (set_conn x id)) with (x_handlers x);
    destruct (x_index x <? x_hlen x)%nat; try (by eexists _, _, _, _).
  destruct (x_handlers x !! x_index x) as [h|] eqn:Hi; [|by eexists _, _, _, _].
  match goal with |- context [pexec ?f (code h) x _] => set (next := f) end.
  assert (Hn : alike hs next next).
  { intros y cy ly Hhy Hly. unfold next. destruct (IH (set_index y (S (x_index y))) (log cy EvNext) (ly ++ [EvNext]) Hhy Hly) as (r & x1 & c1 & l1 & H1 & H2 & H3 & H4).
    eexists _, _, _, _. split; [exact H1|]. split; [exact H2|]. done. }
  assert (h ∈ hs) as Hin by (rewrite <- Hh; by eapply elem_of_list_lookup_2).
  destruct (pexec_other _ _ _ (code h) (Hb h Hin) Hn x (log c (EvStart (x_index x))) (l ++ [EvStart (x_index x)]) Hh Hl) as (r & x1 & c1 & l1 & H1 & H2 & H3 & H4).
  change (log (other c l) (EvStart (x_index x))) with (other (log c (EvStart (x_index x))) (l ++ [EvStart (x_index x)])).
  rewrite H1, H2. cbn [log cn_req] in H3. destruct r as [|v|]; [|by eexists _, _, _, _..].
  cbn [set_conn x_index x_written set_index].
  destruct (x_written x1); [by eexists _, (set_index x1 (S (x_index x1))), (log c1 (EvEnd (x_index x))), (l1 ++ [EvEnd (x_index x)])|].
  destruct (IH (set_index x1 (S (x_index x1))) (log c1 (EvEnd (x_index x))) (l1 ++ [EvEnd (x_index x)]) H4) as (r & x2 & c2 & l2 & J1 & J2 & J3 & J4);
    [cbn [log cn_req]; by rewrite H3|].
  eexists _, _, _, _. split; [exact J1|]. split; [exact J2|]. cbn [log cn_req] in J3. split; [congruence|done].
Qed.
Lemma runc_other id0 hs ps n r body en c : (forall h, h ∈ hs -> method_blind (code h)) -> like_form r ->
  runc id0 hs ps n r body = (en, c) -> exists l, runc id hs ps n (with_method m r) body = (en, other c l).
Proof.
  intros Hb Hl H. unfold ServeMore.runc in *.
  destruct (crun_other hs (length hs) Hb (fresh id0 hs ps n) (arrive r body) [] eq_refl Hl) as (r1 & x1 & c1 & l1 & H1 & H2 & H3 & H4).
  rewrite H1 in H. injection H as <- <-. exists l1.
  change (set_conn (fresh (V:=V) id0 hs ps n) id) with (fresh (V:=V) id hs ps n) in H2.
  change (other (arrive r body) []) with (arrive (V:=V) (with_method m r) body) in H2. by rewrite H2.
Qed.
End Blind.

Section Engine.
Context {A V : Type}.
Variable re_ok : gostr -> bool.
Variable re_find : gostr -> gostr -> option (list gostr).
Variable sniff : gostr -> gostr.
Variable parse_form : bool -> request -> gostr * bool -> gmap gostr (list gostr) * bool * gostr.
Variable code : handler A -> prog V.
Implicit Types e : engine A.
Local Notation ServeHTTP := (ServeHTTP re_find sniff parse_form code).
Local Notation ran := (ran sniff parse_form code).

Lemma head_refused r n : rq_method r = L "GET" -> refused (with_method (L "HEAD") r) n -> refused r n.
Proof.
  intros Hm H. apply refusal_refused in H. apply refusal_refused. unfold refusal in *. rewrite Hm. cbn [with_method rq_method rq_uri] in H.
  change (proto_11 (with_method (L "HEAD") r)) with (proto_11 r) in H.
  destruct (negb (proto_11 r)); [done|]. destruct (seqb (rq_uri r) (L "*")); done.
Qed.
Lemma head_like r : rq_method r = L "GET" -> (forall b d, parse_form b (with_method (L "HEAD") r) d = parse_form b r d) -> like_form parse_form (L "HEAD") r.
Proof. intros Hm Hp. split; [|done]. unfold is_multipart. rewrite Hm. done. Qed.

Lemma head_ran (params path : bool) id id' hs ps ps' n n' r body en en' c c' :
  rq_method r = L "GET" -> (forall b d, parse_form b (with_method (L "HEAD") r) d = parse_form b r d) ->
  (params = true -> ps = ps') -> (path = true -> at_uri n = at_uri n') ->
  (forall h, h ∈ hs -> only (allowed params path) (code h)) -> (forall h, h ∈ hs -> method_blind (code h)) ->
  ran id hs ps n r body en c -> ran id' hs ps' n' (with_method (L "HEAD") r) body en' c' -> en = en' /\ cn_rw c = cn_rw c'.
Proof.
  intros Hm Hf Hp Hn Ho Hb H1 H2. apply runc_ran in H1, H2.
  rewrite <- (runc_sim sniff parse_form code params path id' hs ps ps' n n' _ _ Hp Hn Ho) in H2.
  destruct (runc_other sniff parse_form code (L "HEAD") id' id hs ps n r body en c Hb (head_like r Hm Hf) H1) as [l H]. rewrite H in H2.
  by injection H2 as <- <-.
Qed.

Lemma head_blind ops r0 opts e id id' x x' r body en en' px px' c c' hs :
  engine_of re_ok ops r0 opts e -> ServeHTTP e id x (arrive r body) = (en, px, c) ->
  ServeHTTP e id' x' (arrive (with_method (L "HEAD") r) body) = (en', px', c') ->
  rq_method r = L "GET" -> (forall b d, parse_form b (with_method (L "HEAD") r) d = parse_form b r d) -> (forall n, ~ refused r n) ->
  (forall hs', dispatched re_ok re_find e r hs' <-> hs' = hs) -> (forall hs', dispatched re_ok re_find e (with_method (L "HEAD") r) hs' <-> hs' = hs) ->
  (forall h, h ∈ hs -> method_blind (code h) /\ only param_free (code h) /\ only path_free (code h)) ->
  en = en' /\ cn_rw c = cn_rw c'.
Proof.
  intros He H1 H2 Hm Hf Href Hd1 Hd2 Hb.
  assert (forall r n, n = 404 /\ (forall k, ~ refused r k) /\ o_nofound (en_options e) = [] /\
        (forall v, v ∈ routes e -> ~ fits re_ok re_find v r /\ ~ verbatim re_ok e v r) -> dispatched re_ok re_find e r hs -> False) as Hnot.
  { intros r1 n (_ & _ & Hnf & Hno) Hd. inversion Hd as [v Hv Hvm Hw|_ Hnf']; subst; [|done].
    destruct Hw as [Hw|(u & Hu & Hw & _)]; [by destruct (Hno v Hv)|by destruct (Hno u Hu)]. }
  apply (dispatched_ran re_ok) with (ops := ops) (r0 := r0) (opts := opts) in H1; [|done].
  apply (dispatched_ran re_ok) with (ops := ops) (r0 := r0) (opts := opts) in H2; [|done].
  destruct H1 as [(n & _ & _ & [Hx|Hx])|(_ & hs1 & ps1 & n1 & D1 & R1)]; [by destruct (Href n)|by destruct (Hnot _ _ Hx (proj2 (Hd1 hs) eq_refl))|].
  destruct H2 as [(n & _ & _ & [Hx|Hx])|(_ & hs2 & ps2 & n2 & D2 & R2)];
    [by destruct (Href n); apply head_refused|by destruct (Hnot _ _ Hx (proj2 (Hd2 hs) eq_refl))|].
  apply Hd1 in D1 as ->. apply Hd2 in D2 as ->.
  apply (head_ran false false id id' hs ps1 ps2 n1 n2 r body en en' c c'); [done|done|done|done| | |exact R1|exact R2].
  - intros h Hh. destruct (Hb h Hh) as (_ & Hp & Hq). clear -Hp Hq. induction (code h) as [| |o k IH|k IH|b IHb k IH]; cbn [only] in *; auto.
    + destruct Hp, Hq. split; [by destruct o|auto].
    + destruct Hp, Hq. split; auto.
  - intros h Hh. by apply Hb.
Qed.

(** the handlers of a route may use FullPath *)
Lemma head_blind_route ops r0 opts e id id' x x' r body en en' px px' c c' v v' :
  engine_of re_ok ops r0 opts e -> ServeHTTP e id x (arrive r body) = (en, px, c) ->
  ServeHTTP e id' x' (arrive (with_method (L "HEAD") r) body) = (en', px', c') ->
  rq_method r = L "GET" -> (forall b d, parse_form b (with_method (L "HEAD") r) d = parse_form b r d) -> (forall n, ~ refused r n) ->
  sole_route re_ok re_find e v r -> sole_route re_ok re_find e v' (with_method (L "HEAD") r) ->
  rt_handlers v = rt_handlers v' -> rt_uri v = rt_uri v' ->
  (forall h, h ∈ rt_handlers v -> method_blind (code h) /\ only param_free (code h)) ->
  en = en' /\ cn_rw c = cn_rw c'.
Proof.
  intros He H1 H2 Hm Hf Href Hs Hs' Hh Hu Hb.
  assert (forall r e v en px c id x, engine_of re_ok ops r0 opts e -> ServeHTTP e id x (arrive r body) = (en, px, c) -> (forall n, ~ refused r n) ->
    sole_route re_ok re_find e v r -> exists ps l, ran id (rt_handlers v) ps (Some (l, Some v)) r body en c) as Key.
  { clear. intros r e v en px c id x He H Href (Hv & Hfit & Hsole).
    destruct (serve_handled re_ok _ _ _ _ _ _ _ _ _ _ _ _ _ _ _ He H) as
      [n Hn|Hr Hno _|ps Hr Hno Hnf Hran|v' w n ps Hr Hv' Hw Hsame Hfi Hla Hwhy Hh Hran]; [by destruct (Href n)|by destruct (Hno v Hv)..|].
    assert (fits re_ok re_find v' r \/ verbatim re_ok e v' r -> v' = v) as Hone by (by apply Hsole).
    assert (fits re_ok re_find v r) as (Hmv & p & Hp & Hacc) by done.
    assert (same_pattern re_ok v v') as Hvv.
    { destruct Hwhy as [Hfv|(u & Hu & Hver & Huv)].
      - rewrite (Hone (or_introl Hfv)). split; [done|]. by exists p.
      - assert (u = v) as -> by (apply Hsole; [done|by right]). done. }
    assert (forall u, u ∈ routes e -> same_pattern re_ok v u -> u = v) as Hall.
    { intros u Hin [Hmu (q & Hq & Hq')]. apply Hsole; [done|]. left. split; [congruence|]. exists q. split; [done|].
      by rewrite (uri_route_fun _ _ _ _ Hq Hp). }
    rewrite (Hall v' Hv' Hvv) in *. rewrite (Hall w Hw Hsame) in *. by exists ps, n. }
  assert (forall n, ~ refused (with_method (L "HEAD") r) n) as Href' by (intros n Hn; by apply (Href n), head_refused).
  destruct (Key _ _ _ _ _ _ _ _ He H1 Href Hs) as (ps & l & R1).
  destruct (Key _ _ _ _ _ _ _ _ He H2 Href' Hs') as (ps' & l' & R2).
  rewrite <- Hh in R2.
  apply (head_ran false true id id' (rt_handlers v) ps ps' (Some (l, Some v)) (Some (l', Some v')) r body en en' c c'); [done|done|done| | | |exact R1|exact R2].
  - intros _. unfold at_uri. cbn. by rewrite Hu.
  - intros h Hin. apply only_param_free. by apply Hb.
  - intros h Hin. by apply Hb.
Qed.

(** and the parameters, where these are exact *)
Lemma head_blind_params ops r0 opts e id id' x x' r body en en' px px' c c' v v' tbl tbl' p :
  engine_of re_ok ops r0 opts e -> ServeHTTP e id x (arrive r body) = (en, px, c) ->
  ServeHTTP e id' x' (arrive (with_method (L "HEAD") r) body) = (en', px', c') ->
  rq_method r = L "GET" -> (forall b d, parse_form b (with_method (L "HEAD") r) d = parse_form b r d) -> (forall n, ~ refused r n) ->
  sole_route re_ok re_find e v r -> sole_route re_ok re_find e v' (with_method (L "HEAD") r) ->
  rt_handlers v = rt_handlers v' -> rt_uri v = rt_uri v' -> uri_route re_ok (rt_variant v) p -> uri_route re_ok (rt_variant v') p ->
  ~ literal re_ok v -> ~ literal re_ok v' ->
  method_table re_ok e (L "GET") tbl -> method_table re_ok e (L "HEAD") tbl' -> no_inner_regexp tbl -> no_inner_regexp tbl' -> NoDup (route_names 0 p) ->
  (forall h, h ∈ rt_handlers v -> method_blind (code h)) ->
  en = en' /\ cn_rw c = cn_rw c'.
Proof.
  intros He H1 H2 Hm Hf Href Hs Hs' Hh Hu Hp Hp' Hnl Hnl' Ht Ht' Hr Hr' Hnd Hb.
  assert (forall r e v t p' en px c id x, engine_of re_ok ops r0 opts e -> ServeHTTP e id x (arrive r body) = (en, px, c) -> (forall n, ~ refused r n) ->
    sole_route re_ok re_find e v r -> uri_route re_ok (rt_variant v) p' -> ~ literal re_ok v -> method_table re_ok e (rq_method r) t -> no_inner_regexp t -> NoDup (route_names 0 p') ->
    exists m l, ran id (rt_handlers v) (Some m) (Some (l, Some v)) r body en c /\ forall k u, m !! k = Some u <-> bound_by re_find 0 p' (path_segs (rq_path r)) k u) as Key.
  { clear. intros r e v t p en px c id x He H Href (Hv & Hfit & Hsole) Hp Hnl Ht Hr Hnd.
    destruct (serve_chosen re_ok re_find sniff parse_form code _ _ _ _ _ _ _ _ _ _ _ He H Href) as [Hno|(v' & p' & tbl' & m & n & Hv' & Hp' & Ht' & Hran & Hch & Hb & _ & l & w & -> & Hw & Hmw & Hpw)].
    { intros u Hu Hver. assert (u = v) as -> by (apply Hsole; [done|by right]). by destruct Hver as (_ & _ & _ & ?). }
    { by destruct (Hno v Hv). }
    unfold method_routes in Hv'. apply elem_of_list_In, List.filter_In in Hv' as [Hv' Hm']. apply elem_of_list_In in Hv'. apply seqb_true in Hm'.
    assert (v' = v) as ->. { apply Hsole; [done|]. left. split; [done|]. exists p'. split; [done|]. by destruct Hch as (_ & ? & _). }
    assert (w = v) as ->. { apply Hsole; [done|]. left. split; [done|]. exists p'. split; [done|]. by destruct Hch as (_ & ? & _). }
    exists m, l. split; [done|].
    assert (forall a b l, Forall2 (fun (v : route A) p => uri_route re_ok (rt_variant v) p) l a -> Forall2 (fun (v : route A) p => uri_route re_ok (rt_variant v) p) l b -> a = b) as Hfun.
    { clear. intros a b l Ha. revert b. induction Ha as [|y q l a Hy Ha IH]; intros b Hb; inversion Hb as [|? q' ? b' Hy' Hb']; subst; [done|]. f_equal; [|by apply IH].
      by eapply uri_route_fun. }
    assert (tbl' = t) as -> by (by eapply Hfun).
    assert (p' = p) as -> by (by eapply uri_route_fun).
    by apply (bn_exact _ _ _ _ _ Hb Hr Hnd). }
  assert (forall n, ~ refused (with_method (L "HEAD") r) n) as Href' by (intros n Hn; by apply (Href n), head_refused).
  rewrite <- Hm in Ht.
  destruct (Key _ _ _ _ _ _ _ _ _ _ He H1 Href Hs Hp Hnl Ht Hr Hnd) as (m & l & R1 & M1).
  destruct (Key _ _ _ _ _ _ _ _ _ _ He H2 Href' Hs' Hp' Hnl' Ht' Hr' Hnd) as (m' & l' & R2 & M2).
  rewrite <- Hh in R2.
  apply (head_ran true true id id' (rt_handlers v) (Some m) (Some m') (Some (l, Some v)) (Some (l', Some v')) r body en en' c c'); [done|done| | | |done|exact R1|exact R2].
  - intros _. f_equal. apply map_eq. intros k. apply option_eq. intros u. rewrite M1, M2. done.
  - intros _. unfold at_uri. cbn. by rewrite Hu.
  - intros h _. generalize (code h). clear. intros q. eapply only_impl; [|apply only_any]. by intros [].
Qed.
End Engine.

(** ** Files *)
(** the same status and headers, and a type unless the bodies are the same *)
Definition twin (h0 : header) (a b : list (gostr * option gostr) * Z * list gostr) : Prop :=
  a.1 = b.1 /\ (concat a.2 = concat b.2 \/ is_Some (put_headers a.1.1 h0 !! L "Content-Type")).
Lemma put_some k hs : forall h : header, (forall kv, kv ∈ hs -> kv.2 <> None) ->
  is_Some (h !! canon k) \/ (exists v, (k, Some v) ∈ hs) -> is_Some (put_headers hs h !! canon k).
Proof.
  induction hs as [|[key o] hs IH]; intros h Hn Hs.
  - destruct Hs as [Hs|[v Hv]]; [done|]. by apply elem_of_nil in Hv.
  - change (put_headers ((key, o) :: hs) h) with (put_headers hs (match o with Some v => h_set h key v | None => h_del h key end)).
    destruct o as [v|]; [|by destruct (Hn (key, None)); [left|]]. apply IH; [intros kv Hkv; apply Hn; by right|]. unfold h_set.
    destruct Hs as [Hs|[w [Hw|Hw]%elem_of_cons]].
    + left. destruct (decide (canon key = canon k)) as [->|Hk]; [by rewrite lookup_insert|by rewrite lookup_insert_ne].
    + injection Hw as -> ->. left. by rewrite lookup_insert.
    + right. by exists w.
Qed.
Lemma client_twin sniff r w w' h0 a b : rq_method r = L "GET" -> twin h0 a b ->
  rw_sent w = Some (a.1.2, put_headers a.1.1 h0) -> rw_body w = (if bears_body a.1.2 then concat a.2 else []) ->
  rw_sent w' = Some (b.1.2, put_headers b.1.1 h0) -> rw_body w' = (if bears_body b.1.2 then concat b.2 else []) ->
  exists n hd out, net_client sniff r w = (n, hd, out) /\ net_client sniff (with_method (L "HEAD") r) w' = (n, hd, []).
Proof.
  intros Hm [Ht Hb] S1 B1 S2 B2. unfold net_client, finish. rewrite S1, S2, B1, B2, <- Ht. rewrite Hm. cbn [with_method rq_method].
  assert (seqb (L "GET") (L "HEAD") = false) as -> by done. assert (seqb (L "HEAD") (L "HEAD") = true) as -> by done.
  destruct Hb as [Hb|Hb].
  - rewrite Hb. by eexists _, _, _.
  - assert (bool_decide (put_headers a.1.1 h0 !! L "Content-Type" = None) = false) as -> by (apply bool_decide_eq_false_2; intros E; rewrite E in Hb; by destruct Hb).
    rewrite !andb_false_r. cbn [andb]. by eexists _, _, _.
Qed.

Section Net.
Context {F : Type}.
Variable parse_time : gostr -> option Z.
Variable modtime : F -> option Z.
Variable http_date : Z -> gostr.
Variable strict : bool.
Variable content : F -> gostr.
Variable ctype : F -> gostr.
Variable bnd : gostr.
Notation send := (net_send strict content ctype bnd).
Notation serve := (net_serve parse_time modtime http_date send).

Lemma send_twin r enc f rg h0 : twin h0 (send r [] enc f rg) (send (with_method (L "HEAD") r) [] enc f rg).
Proof.
  unfold net_send. cbn iota. cbn [with_method rq_method]. assert (seqb (L "HEAD") (L "HEAD") = true) as -> by done.
  destruct (parseRange strict rg (Z.of_nat (length (content f)))) as [er|l]; [split; [done|by left]|].
  destruct (match (if _ <? _ then _ else _) with [] => _ | _ => _ end) as [[[rh n] sz] out] eqn:E. split; [done|]. right. cbn [fst].
  change (L "Content-Type") with (canon (L "Content-Type")). apply put_some.
  - assert (forall kv, kv ∈ rh -> kv.2 <> None) as Hrh.
    { destruct (if _ <? _ then [] else l) as [|x [|y l']]; injection E as <- _ _ _; intros kv Hkv; [by apply elem_of_nil in Hkv|..];
        apply elem_of_list_singleton in Hkv as ->; done. }
    intros kv Hkv. rewrite !elem_of_app in Hkv. destruct Hkv as [Hkv|[Hkv|[Hkv|Hkv]]]; [by apply elem_of_list_singleton in Hkv as ->|by apply Hrh|by apply elem_of_list_singleton in Hkv as ->|].
    destruct (seqb enc []); [by apply elem_of_list_singleton in Hkv as ->|by apply elem_of_nil in Hkv].
  - right. exists (ctype f). cbn [app]. left.
Qed.
Lemma check_head r etag m : rq_method r = L "GET" ->
  checkPreconditions parse_time (with_method (L "HEAD") r) etag m = checkPreconditions parse_time r etag m.
Proof. intros Hm. unfold checkPreconditions. rewrite Hm. cbn [with_method rq_header rq_method]. done. Qed.
Lemma serve_twin r etag enc f h0 : rq_method r = L "GET" -> twin h0 (serve r [] etag enc f) (serve (with_method (L "HEAD") r) [] etag enc f).
Proof.
  intros Hm. unfold net_serve. rewrite (check_head r etag _ Hm). destruct (checkPreconditions _ _ _ _) as [| |rg|]; try (split; [done|by left]).
  set (lm := match modtime f with Some m => [(L "Last-Modified", Some (http_date m))] | None => [] end).
  pose proof (send_twin r enc f rg (put_headers lm h0)) as [H1 H2].
  destruct (send r [] enc f rg) as [[hs n] out]. destruct (send (with_method (L "HEAD") r) [] enc f rg) as [[hs' n'] out']. cbn [fst snd] in H1, H2. injection H1 as <- <-.
  split; [done|]. destruct H2 as [H2|H2]; [by left|]. right. cbn [fst]. unfold put_headers in *. by rewrite fold_left_app.
Qed.

Section File.
Context {D : Type}.
Variable raw_query : request -> gostr.
Variable listing : request -> D -> list (gostr * option gostr) * Z * list gostr.
Lemma file_twin r etag enc name os h0 : rq_method r = L "GET" -> raw_query (with_method (L "HEAD") r) = raw_query r ->
  (forall d, listing (with_method (L "HEAD") r) d = listing r d) ->
  twin h0 (net_ServeFile raw_query serve listing r [] etag enc name os) (net_ServeFile raw_query serve listing (with_method (L "HEAD") r) [] etag enc name os).
Proof.
  intros Hm Hq Hl. unfold net_ServeFile. cbn [with_method rq_path]. destruct (containsDotDot (rq_path r)); [split; [done|by left]|].
  destruct (filepath_Split name) as [dir file]. unfold net_serveFile, localRedirect. rewrite Hq. cbn [with_method rq_path].
  destruct (has_suffix (L "/index.html") (rq_path r)); [split; [done|by left]|].
  destruct (os (dir_open dir file)) as [w|d|f]; [destruct (toHTTPError w); split; [done|by left]| |by apply serve_twin].
  destruct (seqb (rq_path r) [] || negb (has_suffix (L "/") (rq_path r))); [split; [done|by left]|].
  destruct (os _) as [w|d'|f]; [rewrite Hl; split; [done|by left]|rewrite Hl; split; [done|by left]|by apply serve_twin].
Qed.

Context {A V : Type}.
Variable re_ok : gostr -> bool.
Variable re_find : gostr -> gostr -> option (list gostr).
Variable sniff : gostr -> gostr.
Variable parse_form : bool -> request -> gostr * bool -> gmap gostr (list gostr) * bool * gostr.
Variable code : handler A -> prog V.
Variable parseAuthority : gostr -> option gostr.
Variable page : request -> gostr -> Z -> gostr.
Notation serve_file := (net_ServeFile raw_query serve listing).
Local Notation ServeHTTP := (ServeHTTP re_find sniff parse_form code).
Hypothesis listing_valid : forall r d, 100 <= (listing r d).1.2 <= 999.

Lemma file_head ops r0 opts e id id' x x' r body body' en en' px px' c c' v v' h h' name os :
  engine_of re_ok ops r0 opts e -> ServeHTTP e id x (arrive r body) = (en, px, c) ->
  ServeHTTP e id' x' (arrive (with_method (L "HEAD") r) body') = (en', px', c') ->
  rq_method r = L "GET" -> (forall n, ~ refused r n) ->
  raw_query (with_method (L "HEAD") r) = raw_query r -> (forall d, listing (with_method (L "HEAD") r) d = listing r d) ->
  sole_route re_ok re_find e v r -> sole_route re_ok re_find e v' (with_method (L "HEAD") r) ->
  rt_handlers v = [h] -> rt_handlers v' = [h'] -> code h = static_file_handler serve_file name os -> code h' = static_file_handler serve_file name os ->
  exists n hd out, net_client sniff r (cn_rw c) = (n, hd, out) /\ net_client sniff (with_method (L "HEAD") r) (cn_rw c') = (n, hd, []).
Proof.
  clear page parseAuthority. intros He H1 H2 Hm Href Hq Hl Hs Hs' Hh Hh' Hc Hc'.
  assert (forall n, ~ refused (with_method (L "HEAD") r) n) as Href' by (intros n Hn; by apply (Href n), head_refused).
  pose proof (net_valid parse_time modtime http_date strict content ctype bnd) as Hnv.
  destruct (file_served re_ok re_find sniff parse_form code raw_query serve listing _ _ _ _ _ _ _ _ _ _ _ _ _ _ _ Hnv listing_valid He H1 Href Hs Hh Hc) as (_ & a & Ha & S1 & B1).
  destruct (file_served re_ok re_find sniff parse_form code raw_query serve listing _ _ _ _ _ _ _ _ _ _ _ _ _ _ _ Hnv listing_valid He H2 Href' Hs' Hh' Hc') as (_ & b & Hb & S2 & B2).
  rewrite (file_answer_unique _ _ _ _ _ _ _ _ _ _ _ Ha (serve_file_answer raw_query serve listing _ _ _ _ _ _)) in S1, B1.
  rewrite (file_answer_unique _ _ _ _ _ _ _ _ _ _ _ Hb (serve_file_answer raw_query serve listing _ _ _ _ _ _)) in S2, B2.
  eapply client_twin; [done| |exact S1|exact B1|exact S2|exact B2]. by apply file_twin.
Qed.

Lemma static_head ops r0 opts e id id' x x' r body body' en en' px px' c c' v v' h h' pre o open os :
  engine_of re_ok ops r0 opts e -> ServeHTTP e id x (arrive r body) = (en, px, c) ->
  ServeHTTP e id' x' (arrive (with_method (L "HEAD") r) body') = (en', px', c') ->
  rq_method r = L "GET" -> (forall n, ~ refused r n) ->
  raw_query (with_method (L "HEAD") r) = raw_query r -> (forall d, listing (with_method (L "HEAD") r) d = listing r d) ->
  sole_route re_ok re_find e v r -> sole_route re_ok re_find e v' (with_method (L "HEAD") r) ->
  Forall literal_seg pre -> rt_variant v = slashed (pre ++ [L "*"]) -> rt_variant v' = slashed (pre ++ [L "*"]) ->
  rt_handlers v = [h] -> rt_handlers v' = [h'] ->
  code h = static_handler (redirect_location parseAuthority) page serve serve_file o open os ->
  code h' = static_handler (redirect_location parseAuthority) page serve serve_file o open os ->
  exists n hd out, net_client sniff r (cn_rw c) = (n, hd, out) /\ net_client sniff (with_method (L "HEAD") r) (cn_rw c') = (n, hd, []).
Proof.
  intros He H1 H2 Hm Href Hq Hl Hs Hs' Hpre Hv Hv' Hh Hh' Hc Hc'.
  assert (forall n, ~ refused (with_method (L "HEAD") r) n) as Href' by (intros n Hn; by apply (Href n), head_refused).
  pose proof (net_valid parse_time modtime http_date strict content ctype bnd) as Hnv.
  assert (forall r t etag enc p os, 100 <= (serve_file r t etag enc p os).1.2 <= 999) as Hfv by (intros; by apply answer_valid).
  destruct (static_served re_ok re_find sniff parse_form code (redirect_location parseAuthority) page serve serve_file
    (fun r t etag enc f => proj2 (code_ok _) (Hnv r t etag enc f)) (fun r t etag enc p os => proj2 (code_ok _) (Hfv r t etag enc p os))
    _ _ _ _ _ _ _ _ _ _ _ _ _ _ _ _ _ He H1 Href Hs Hpre Hv Hh Hc (or_introl Hm)) as (n1 & N1 & _ & a1 & R1 & S1 & B1).
  destruct (static_served re_ok re_find sniff parse_form code (redirect_location parseAuthority) page serve serve_file
    (fun r t etag enc f => proj2 (code_ok _) (Hnv r t etag enc f)) (fun r t etag enc p os => proj2 (code_ok _) (Hfv r t etag enc p os))
    _ _ _ _ _ _ _ _ _ _ _ _ _ _ _ _ _ He H2 Href' Hs' Hpre Hv' Hh' Hc' (or_intror eq_refl)) as (n2 & N2 & _ & a2 & R2 & S2 & B2).
  change (file_name pre r n2) in N2. rewrite (file_name_fun _ _ _ _ N2 N1) in R2. clear N1 N2.
  inversion R1 as [[E1|E1]|mt sz bs f E1 E2 E3|mt sz bs f E1 E2|E1 E2 E3 loc|E1 E2]; subst a1;
    inversion R2 as [[E4|E4]|mt' sz' bs' f' E4 E5 E6|mt' sz' bs' f' E4 E5|E4 E5 E6 loc'|E4 E5]; subst a2; try congruence.
  1-2: eapply (client_twin sniff r _ _ ∅ ([], 404, []) ([], 404, [])); [done|split; [done|by left]|exact S1|exact B1|exact S2|exact B2].
  - rewrite E1 in E4. injection E4 as <- <- <- <-.
    eapply (client_twin sniff r _ _ (announced o mt sz bs) ([], 304, []) ([], 304, [])); [done|split; [done|by left]|exact S1|exact B1|exact S2|exact B2].
  - rewrite E1 in E4. injection E4 as <- <- <- <-. by destruct (E5 E2).
  - rewrite E1 in E4. injection E4 as <- <- <- <-. by destruct (E2 E5).
  - rewrite E1 in E4. injection E4 as <- <- <- <-.
    pose proof (serve_twin r (h_get (announced o mt sz bs) (L "Etag")) [] f (announced o mt sz bs) Hm) as Htw.
    destruct (serve r _ _ _ f) as [[hs n] out]. destruct (serve (with_method (L "HEAD") r) _ _ _ f) as [[hs' n'] out'].
    eapply client_twin; [done|exact Htw|exact S1|exact B1|exact S2|exact B2].
  - change (redirect_location parseAuthority (with_method (L "HEAD") r) (Clean (rq_path (with_method (L "HEAD") r)) ++ L "/"))
      with (redirect_location parseAuthority r (Clean (rq_path r) ++ L "/")) in loc'. subst loc loc'.
    rewrite (decide_True _ _ Hm) in B1. cbn [fst snd] in *.
    set (hd := <[L "Content-Type" := _]> _) in *.
    eapply (client_twin sniff r _ _ hd ([], 302, [page r (Clean (rq_path r) ++ L "/") 302]) ([], 302, [])); [done| |exact S1| |exact S2|exact B2].
    + split; [done|]. right. cbn [fst put_headers fold_left]. unfold hd. by rewrite lookup_insert.
    + cbn [fst snd concat]. rewrite app_nil_r. exact B1.
  - cbn [with_method rq_path] in E5. destruct E5 as [E5|E5]; congruence.
  - cbn [with_method rq_path] in E5, E6. destruct E2 as [E2|E2]; congruence.
  - pose proof (file_twin r [] [] (filepath_Join [n1; so_index o]) os (expiring o) Hm Hq Hl) as Htw.
    destruct (serve_file r _ _ _ _ os) as [[hs n] out]. destruct (serve_file (with_method (L "HEAD") r) _ _ _ _ os) as [[hs' n'] out'].
    eapply client_twin; [done|exact Htw|exact S1|exact B1|exact S2|exact B2].
Qed.
End File.
End Net.
