(** CORS. *)
From Verif Require Import Base GoStr Strconv Pattern Tree TreeSpec Header Router Ctx CtxFacts TraceSpec Engine EngineSpec
  ServeFacts ServeProps ServeTop ServeDispatch Content ContentFacts Middleware MiddlewareSpec RecoveryFacts.
Local Open Scope Z_scope.

Lemma allow_origin_announced origins origin : announced origins origin (allow_origin origins origin).
Proof.
  induction origins as [|o l IH]; simpl.
  - right. split_and!; [done|apply not_elem_of_nil|apply not_elem_of_nil].
  - destruct (seqb o (L "*")) eqn:H1; [|destruct (seqb o origin) eqn:H2]; cbn [orb].
    + apply seqb_true in H1. left. exists [], l. split_and!; [done|by left|apply not_elem_of_nil|apply not_elem_of_nil].
    + apply seqb_true in H2. left. exists [], l. split_and!; [done|by right|apply not_elem_of_nil|apply not_elem_of_nil].
    + apply seqb_false in H1, H2. revert IH. generalize (allow_origin l origin) as v. intros v IH. destruct IH as [(l1 & l2 & -> & Hv & N1 & N2)|(Hv & N1 & N2)].
      * left. exists (o :: l1), l2. split_and!; try done; rewrite not_elem_of_cons; split; congruence.
      * right. split_and!; try done; rewrite not_elem_of_cons; split; congruence.
Qed.
(** the decision is determined *)
Lemma announced_fun origins origin v w : announced origins origin v -> announced origins origin w -> v = w.
Proof.
  assert (Hsplit : forall (l1 l2 k1 k2 : list gostr) a b, l1 ++ a :: l2 = k1 ++ b :: k2 -> a ∉ k1 -> b ∉ l1 -> a = b).
  { induction l1 as [|x l1 IH]; intros l2 k1 k2 a b E Ha Hb; destruct k1 as [|y k1]; simpl in E; injection E as E1 E2; try congruence.
    - subst. exfalso. apply Ha. by left.
    - subst. exfalso. apply Hb. by left.
    - apply (IH l2 k1 k2); [done| |]; intros Hin; [apply Ha|apply Hb]; by right. }
  intros [(l1 & l2 & -> & Hv & N1 & N2)|(-> & N1 & N2)] [(k1 & k2 & E & Hw & M1 & M2)|(-> & M1 & M2)].
  - apply (Hsplit _ _ _ _ _ _ E); [by destruct Hv as [->| ->]|by destruct Hw as [->| ->]].
  - exfalso. destruct Hv as [->| ->]; [apply M1|apply M2]; apply elem_of_app; right; by left.
  - subst. exfalso. destruct Hw as [->| ->]; [apply N1|apply N2]; apply elem_of_app; right; by left.
  - done.
Qed.

Section Facts.
Context {A V : Type}.
Variable sniff : gostr -> gostr.
Variable parse_form : bool -> request -> gostr * bool -> gmap gostr (list gostr) * bool * gostr.
Variable code : handler A -> prog V.
Implicit Types x y : ctxobj A V.
Implicit Types c : conn V.
Implicit Types next : ctxobj A V -> conn V -> ending * (ctxobj A V * conn V).

Local Notation call := (call sniff parse_form).
Local Notation pexec := (pexec sniff parse_form).
Local Notation crun := (crun sniff parse_form code).
Local Notation ran := (ran sniff parse_form code).

Lemma crun_stop fuel x c : (x_hlen x <= x_index x)%nat -> crun fuel x c = (EDone, (x, c)).
Proof. intros H. destruct fuel; simpl; by rewrite (proj2 (Nat.ltb_ge _ _) H). Qed.

Lemma first_code_cons (e : event V) l : first_code (e :: l) = match asks e with Some n => Some n | None => first_code l end.
Proof. change (e :: l) with ([e] ++ l). rewrite first_code_app, first_code_one. by destruct (asks e). Qed.

(** ** Header operations *)
Definition hop (h : header) (o : op V) : header :=
  match o with
  | OHeaderSet k v => h_set h k v
  | OHeaderAdd k v => h_add h k v
  | OHeaderDel k => h_del h k
  | _ => h
  end.
Definition headerly (o : op V) : Prop :=
  match o with OHeaderSet _ _ | OHeaderAdd _ _ | OHeaderDel _ => True | _ => False end.
Lemma h_values_hop h o k : h_values (hop h o) k =
  match o with
  | OHeaderSet k' v => if seqb (canon k') (canon k) then [v] else h_values h k
  | OHeaderAdd k' v => if seqb (canon k') (canon k) then h_values h k ++ [v] else h_values h k
  | OHeaderDel k' => if seqb (canon k') (canon k) then [] else h_values h k
  | _ => h_values h k
  end.
Proof.
  destruct o; try done; cbn [hop]; destruct (seqb (canon k0) (canon k)) eqn:E;
    (apply seqb_true in E || apply seqb_false in E); unfold h_set, h_add, h_del, h_values.
  - by rewrite E, lookup_insert.
  - by rewrite lookup_insert_ne.
  - by rewrite E, lookup_insert.
  - by rewrite lookup_insert_ne.
  - by rewrite E, lookup_delete.
  - by rewrite lookup_delete_ne.
Qed.

Lemma exec_headers next os k : Forall headerly os -> forall x c,
  exists c' l, pexec next (seqp os k) x c = pexec next k x c' /\
    cn_rw c' = mkRw (fold_left hop os (rw_hdr (cn_rw c))) (rw_sent (cn_rw c)) (rw_body (cn_rw c)) /\
    cn_req c' = cn_req c /\ cn_body c' = cn_body c /\ cn_log c' = cn_log c ++ l /\
    starts l = [] /\ first_code l = None /\ sends l = [] /\ (forall h, fold_left hdr_step l h = fold_left hop os h).
Proof.
  induction 1 as [|o os Ho Hos IH]; intros x c.
  - exists c, []. rewrite app_nil_r. cbn [seqp fold_right fold_left]. split_and!; try done. by destruct (cn_rw c).
  - rewrite pexec_seqp.
    assert (exists r c1, call o x c = (Norm r, (x, c1)) /\ cn_log c1 = cn_log c ++ [EvCall o (Norm r)] /\
      cn_req c1 = cn_req c /\ cn_body c1 = cn_body c /\
      cn_rw c1 = mkRw (hop (rw_hdr (cn_rw c)) o) (rw_sent (cn_rw c)) (rw_body (cn_rw c))) as (r & c1 & E & Hl & Hq & Hb & Hw).
    { destruct o; try (by destruct Ho); eexists _, _; split_and!; reflexivity. }
    rewrite E. cbn iota. destruct (IH x c1) as (c' & l & H1 & H2 & H3 & H4 & H5 & H6 & H7 & H8 & H9).
    exists c', (EvCall o (Norm r) :: l). split; [done|].
    rewrite H2, Hw. cbn [rw_hdr rw_sent rw_body fold_left]. split; [done|]. split; [congruence|]. split; [congruence|].
    split; [by rewrite H5, Hl, <- app_assoc|]. split; [exact H6|].
    split. { rewrite first_code_cons. by destruct o. }
    split; [exact H8|]. intros h. rewrite <- H9. cbn [fold_left]. by destruct o.
Qed.

Ltac canons := repeat match goal with |- context [seqb (canon (L ?a)) (canon (L ?b))] =>
  let v := eval vm_compute in (seqb (canon (L a)) (canon (L b))) in change (seqb (canon (L a)) (canon (L b))) with v end.
Ltac vals := repeat (rewrite h_values_hop; canons; cbn iota).

(** ** A header that nobody touches keeps its values *)
Definition spared (k : gostr) (vs : list gostr) (x : ctxobj A V) (c : conn V) : Prop :=
  h_values (rw_hdr (cn_rw c)) k = vs /\ forall s h, rw_sent (cn_rw c) = Some (s, h) -> h_values h k = vs.
Lemma spared_WriteHeader k vs x n c o c' : spared k vs x c -> raw_WriteHeader n c = (o, c') -> spared k vs x c'.
Proof.
  intros [J1 J2]. rewrite raw_WriteHeader_spec. destruct (rw_sent (cn_rw c)) eqn:Hs; rewrite <- Hs in J2; [intros [= <- <-]; split; [exact J1|exact J2]|].
  destruct (valid_code n); intros [= <- <-]; (split; [exact J1|]); [|exact J2]. cbn. intros s h [= <- <-]. exact J1.
Qed.
Lemma spared_Write k vs x d c : spared k vs x c -> spared k vs x (raw_Write d c).
Proof.
  intros [J1 J2]. unfold raw_Write. cbn [log cn_rw]. destruct (rw_sent (cn_rw c)) as [[n h]|] eqn:Hs; rewrite <- Hs in J2.
  - rewrite Hs. destruct (body_allowed n); (split; [exact J1|]).
    + cbn. intros s h' [= <- <-]. by apply (J2 n h).
    + exact J2.
  - cbn [rw_sent]. destruct (body_allowed 200); (split; [exact J1|]); cbn; intros s h' [= <- <-]; exact J1.
Qed.
Lemma spared_set k vs x c h : spared k vs x c -> h_values h k = vs -> spared k vs x (set_hdr c h).
Proof. intros [J1 J2] Hh. split; [exact Hh|exact J2]. Qed.
Lemma spared_invariant k vs : canon k <> canon (L "Content-Type") ->
  invariant sniff parse_form (spares k) (spared k vs) (spared k vs).
Proof.
  intros Hct.
  split; try done; [|intros y cy i HJ; by destruct (x_written y)].
  intros o y cy ro y' cy' Ho HJ Hc. apply call_eq in Hc as (c3 & Hd & ->).
  change (spared k vs y c3). change (spared k vs y cy) in HJ.
  revert Hd. destruct o; cbn [Ctx.do_op]; try (intros Hd; inversion Hd; subst; done).
  - unfold ctx_WriteHeader. destruct (x_written y); [intros Hd; inversion Hd; by subst|].
    destruct (raw_WriteHeader code0 cy) as [o1 c1] eqn:Hr. apply (spared_WriteHeader k vs y) in Hr; [|done].
    intros Hd; inversion Hd; subst; exact Hr.
  - unfold ctx_Write, ctx_WriteHeader. destruct (x_written y) eqn:Hw; cbn [negb].
    + intros Hd; inversion Hd; subst. by apply spared_Write.
    + match goal with |- context [raw_WriteHeader 200 ?c0] => destruct (raw_WriteHeader 200 c0) as [o1 c1] eqn:Hr end.
      eapply (spared_WriteHeader k vs y) in Hr.
      2: { destruct (_ && _); [|done]. apply spared_set; [done|]. destruct HJ as [<- _]. unfold h_set, h_values. by rewrite lookup_insert_ne. }
      destruct o1; intros Hd; inversion Hd; subst; [|done]. by apply spared_Write.
  - intros Hd; inversion Hd; subst. apply spared_set; [done|]. destruct HJ as [<- _].
    unfold h_set, h_values. by rewrite lookup_insert_ne.
  - intros Hd; inversion Hd; subst. apply spared_set; [done|]. destruct HJ as [<- _].
    unfold h_add. unfold h_values at 1. by rewrite lookup_insert_ne.
  - intros Hd; inversion Hd; subst. apply spared_set; [done|]. destruct HJ as [<- _].
    unfold h_del. unfold h_values at 1. by rewrite lookup_delete_ne.
  - destruct (raw_WriteHeader code0 cy) as [o1 c1] eqn:Hr. apply (spared_WriteHeader k vs y) in Hr; [|done].
    intros Hd; inversion Hd; subst; exact Hr.
  - intros Hd; inversion Hd; subst. by apply spared_Write.
  - destruct (x_end y) as [[? [rt|]]|]; intros Hd; inversion Hd; subst; done.
  - destruct (x_params y); intros Hd; inversion Hd; subst; done.
  - destruct (x_env y) as [m|]; [destruct (m !! name)|]; intros Hd; inversion Hd; subst; done.
  - destruct (x_env y ≫= _); intros Hd; inversion Hd; subst; done.
  - destruct (x_env y) as [m|]; intros Hd; inversion Hd; subst; done.
  - destruct (x_parsed y); [intros Hd; inversion Hd; subst; done|].
    destruct (parse_form _ _ _) as [[f ok] rest]. destruct ok; intros Hd; inversion Hd; subst; done.
Qed.

Variables (g : handler A) (cfg : CORSConfig) (hs : list (handler A)).
Hypothesis Hg : code g = CORS cfg.

Lemma empty_values k : h_values ∅ k = [].
Proof. unfold h_values. by rewrite lookup_empty. Qed.

Lemma origins_eq : match AllowOrigins cfg with [] => default_origins | l => l end = origins_of cfg.
Proof. unfold origins_of. destruct (AllowOrigins cfg); [by rewrite decide_True|by rewrite decide_False]. Qed.
Lemma methods_eq : match AllowMethods cfg with [] => default_methods | l => l end = methods_of cfg.
Proof. unfold methods_of. destruct (AllowMethods cfg); [by rewrite decide_True|by rewrite decide_False]. Qed.

Lemma cors_run id ps n r body en c' : ran id (g :: hs) ps n r body en c' ->
  (rq_method r = L "OPTIONS" -> en = EDone /\ starts (cn_log c') = [0%nat] /\ sends (cn_log c') = [204] /\
     exists h, rw_sent (cn_rw c') = Some (204, h) /\ rw_body (cn_rw c') = [] /\ cors_preflight cfg r h) /\
  (rq_method r <> L "OPTIONS" -> exists l1 l2, cn_log c' = EvStart 0 :: l1 ++ EvNext :: l2 /\
     starts l1 = [] /\ ~ responded l1 /\ cors_simple cfg r (headers_of l1) /\
     (hs <> [] -> exists l3, l2 = EvStart 1 :: l3) /\
     forall k, canon k <> canon (L "Content-Type") -> (forall f, f ∈ hs -> only (spares k) (code f)) ->
       h_values (rw_hdr (cn_rw c')) k = h_values (headers_of l1) k /\
       forall s h, rw_sent (cn_rw c') = Some (s, h) -> h_values h k = h_values (headers_of l1) k).
Proof.
  intros Hran. pose proof (ran_gap _ _ _ _ _ _ _ _ _ _ _ Hran) as [Hgap Hall].
  destruct Hran as [x' H]. cbn [length Ctx.crun] in H.
  change (x_index (fresh id (g :: hs) ps n) <? x_hlen (fresh id (g :: hs) ps n))%nat with true in H. cbn iota in H.
  change (x_handlers (fresh id (g :: hs) ps n) !! x_index (fresh id (g :: hs) ps n)) with (Some g) in H. cbn iota in H.
  change (x_index (fresh id (g :: hs) ps n)) with 0%nat in H.
  rewrite Hg in H. unfold CORS in H. rewrite origins_eq, methods_eq in H. cbn zeta in H. cbn [Ctx.pexec] in H.
  match type of H with context [call ORequest ?x1 ?c1] => change (call ORequest x1 c1) with
    (Norm (X:=request) r, (x1, log c1 (EvCall ORequest (Norm r)))) in H end. cbn iota in H.
  match type of H with context [pexec ?f (if _ then _ else _) ?xx ?cc] => set (next := f) in H; set (x0 := xx) in H; set (c0 := cc) in H end.
  set (creds := if AllowCredentials cfg then [OHeaderSet (V:=V) (L "Access-Control-Allow-Credentials") (L "true")] else []) in H.
  set (ao := allow_origin (origins_of cfg) (h_get (rq_header r) (L "Origin"))) in H.
  assert (Hcreds : Forall headerly creds) by (unfold creds; destruct (AllowCredentials cfg); by repeat constructor).
  assert (Hcv : forall h k, h_values (fold_left hop creds h) k =
    if AllowCredentials cfg && seqb (canon (L "Access-Control-Allow-Credentials")) (canon k) then [L "true"] else h_values h k).
  { intros h k. unfold creds. destruct (AllowCredentials cfg); cbn [fold_left andb]; [by rewrite h_values_hop|done]. }
  destruct (seqb (rq_method r) (L "OPTIONS")) eqn:Hm; cbn [negb] in H.
  - apply seqb_true in Hm. split; [intros _|done].
    set (ah := if negb (seqb (join (L ",") (AllowHeaders cfg)) []) then [OHeaderSet (V:=V) (L "Access-Control-Allow-Headers") (join (L ",") (AllowHeaders cfg))]
             else if negb (seqb (h_get (rq_header r) (L "Access-Control-Request-Headers")) [])
                  then [OHeaderSet (L "Access-Control-Allow-Headers") (h_get (rq_header r) (L "Access-Control-Request-Headers"))] else []) in H.
    set (ma := if 0 <? MaxAge cfg then [OHeaderSet (V:=V) (L "Access-Control-Max-Age") (itoa (MaxAge cfg))] else []) in H.
    match type of H with context [seqp (?a1 ++ creds ++ ah ++ ma ++ [?w]) PRet] => set (os := a1) in H end.
    rewrite !(app_assoc _ _ [_]), seqp_app in H.
    assert (Hos : Forall headerly (os ++ creds ++ ah ++ ma)).
    { rewrite !Forall_app. split_and!; [by repeat constructor|done| |].
      - unfold ah. destruct (negb _); [by repeat constructor|]. destruct (negb _); by repeat constructor.
      - unfold ma. destruct (0 <? _); by repeat constructor. }
    destruct (exec_headers next _ (seqp [OWriteHeader 204] PRet) Hos x0 c0) as (c1 & l & E & Hrw & Hq & Hb & Hl & Hs & Hf & Hsd & Hh).
    rewrite E in H. rewrite pexec_seqp in H. rewrite call_WriteHeader in H; [|done|by rewrite Hrw|done]. cbn iota in H.
    cbn [seqp fold_right Ctx.pexec] in H. cbn iota in H. cbn [set_written set_index x_written] in H.
    injection H as <- <- <-. cbn [log cn_log cn_rw rw_sent rw_body]. split; [done|]. rewrite Hl.
    split; [|split].
    + unfold c0. cbn [log arrive cn_log app]. rewrite <- !app_assoc. cbn [app]. change (starts (EvStart 0 :: EvCall ORequest (Norm r) :: l ++ [EvSend 204; EvCall (OWriteHeader 204) (Norm tt); EvEnd 0]))
        with (0%nat :: starts (l ++ [EvSend (V:=V) 204; EvCall (OWriteHeader 204) (Norm tt); EvEnd 0])). by rewrite starts_app, Hs.
    + unfold c0. cbn [log arrive cn_log app]. rewrite <- !app_assoc. cbn [app]. change (sends (EvStart 0 :: EvCall ORequest (Norm r) :: l ++ [EvSend 204; EvCall (OWriteHeader 204) (Norm tt); EvEnd 0]))
        with (sends (l ++ [EvSend (V:=V) 204; EvCall (OWriteHeader 204) (Norm tt); EvEnd 0])). by rewrite sends_app, Hsd.
    + eexists. split; [reflexivity|]. rewrite Hrw. cbn [rw_body rw_hdr]. split; [done|].
      unfold c0. cbn [log arrive cn_rw rw_new rw_hdr]. rewrite !fold_left_app.
      assert (Hav : forall h k, h_values (fold_left hop ah h) k =
        if decide (join (L ",") (AllowHeaders cfg) = [])
        then (if decide (h_get (rq_header r) (L "Access-Control-Request-Headers") = []) then h_values h k else
                if seqb (canon (L "Access-Control-Allow-Headers")) (canon k)
                then [h_get (rq_header r) (L "Access-Control-Request-Headers")] else h_values h k)
        else if seqb (canon (L "Access-Control-Allow-Headers")) (canon k) then [join (L ",") (AllowHeaders cfg)] else h_values h k).
      { intros h k. unfold ah. destruct (seqb (join (L ",") (AllowHeaders cfg)) []) eqn:E1; cbn [negb].
        - apply seqb_true in E1. rewrite decide_True by done.
          destruct (seqb (h_get (rq_header r) (L "Access-Control-Request-Headers")) []) eqn:E2; cbn [negb].
          + apply seqb_true in E2. by rewrite decide_True.
          + apply seqb_false in E2. rewrite decide_False by done. cbn [fold_left]. by rewrite h_values_hop.
        - apply seqb_false in E1. rewrite decide_False by done. cbn [fold_left]. by rewrite h_values_hop. }
      assert (Hmv : forall h k, h_values (fold_left hop ma h) k =
        if decide (0 < MaxAge cfg) then (if seqb (canon (L "Access-Control-Max-Age")) (canon k) then [itoa (MaxAge cfg)] else h_values h k)
        else h_values h k).
      { intros h k. unfold ma. destruct (0 <? MaxAge cfg) eqn:E1.
        - apply Z.ltb_lt in E1. rewrite decide_True by done. cbn [fold_left]. by rewrite h_values_hop.
        - apply Z.ltb_ge in E1. by rewrite decide_False by lia. }
      unfold cors_preflight, cors_origin, listed. rewrite !Hmv, !Hav, !Hcv. unfold os. cbn [fold_left]. vals.
      rewrite !empty_values. cbn [join]. rewrite !andb_true_r, !andb_false_r.
      assert (Hif : forall (P Q : Prop) {dP : Decision P} {dQ : Decision Q} (a b : list gostr),
        (if decide P then (if decide Q then b else b) else b) = b)
        by (intros P Q dP dQ a b; destruct (decide P), (decide Q); done).
      split_and!.
      * exists ao. split; [|apply allow_origin_announced]. by repeat case_decide.
      * repeat case_decide; by destruct (AllowCredentials cfg).
      * by repeat case_decide.
      * by repeat case_decide.
      * by repeat case_decide.
      * by repeat case_decide.
  - apply seqb_false in Hm. split; [done|intros _].
    set (ex := if seqb (join (L ",") (ExposeHeaders cfg)) [] then [] else [OHeaderSet (V:=V) (L "Access-Control-Expose-Headers") (join (L ",") (ExposeHeaders cfg))]) in H.
    match type of H with context [seqp (?a1 ++ creds ++ ex) _] => set (os := a1) in H end.
    assert (Hos : Forall headerly (os ++ creds ++ ex)).
    { rewrite !Forall_app. split_and!; [by repeat constructor|done|]. unfold ex. destruct (seqb _ _); by repeat constructor. }
    destruct (exec_headers next _ (PNext PRet) Hos x0 c0) as (c1 & l & E & Hrw & Hq & Hb & Hl & Hs & Hf & Hsd & Hh).
    rewrite E in H. cbn [Ctx.pexec] in H.
    assert (Hev : forall h k, h_values (fold_left hop ex h) k =
      if decide (join (L ",") (ExposeHeaders cfg) = []) then h_values h k
      else if seqb (canon (L "Access-Control-Expose-Headers")) (canon k) then [join (L ",") (ExposeHeaders cfg)] else h_values h k).
    { intros h k. unfold ex. destruct (seqb _ []) eqn:E1.
      - apply seqb_true in E1. by rewrite decide_True.
      - apply seqb_false in E1. rewrite decide_False by done. cbn [fold_left]. by rewrite h_values_hop. }
    set (l1 := EvCall ORequest (Norm r) :: l).
    assert (Hhd : headers_of l1 = rw_hdr (cn_rw c1)).
    { rewrite Hrw. cbn [rw_hdr]. unfold c0. cbn [log arrive cn_rw rw_new rw_hdr]. rewrite <- Hh. done. }
    assert (Hc1 : cn_log c1 = EvStart 0 :: l1) by (rewrite Hl; done).
    assert (Hsim : cors_simple cfg r (headers_of l1)).
    { rewrite Hhd, Hrw. cbn [rw_hdr]. unfold c0. cbn [log arrive cn_rw rw_new rw_hdr]. rewrite !fold_left_app.
      unfold cors_simple, cors_origin, listed. rewrite !Hev, !Hcv. unfold os. cbn [fold_left]. vals.
      rewrite !empty_values. rewrite !andb_true_r, !andb_false_r. split_and!.
      - exists ao. split; [|apply allow_origin_announced]. by repeat case_decide.
      - repeat case_decide; by destruct (AllowCredentials cfg).
      - by repeat case_decide.
      - by repeat case_decide. }
    (* the rest of the chain *)
    assert (Hrest : exists r2 x2 c2, next x0 c1 = (r2, (x2, c2)) /\ r2 <> EStuck /\
      (exists l2, cn_log c2 = EvStart 0 :: l1 ++ EvNext :: l2 /\ turns code (g :: hs) l2 r2) /\
      (r2 = EDone -> x_written x2 = true \/ (x_hlen x2 <= x_index x2)%nat) /\
      (forall k, canon k <> canon (L "Content-Type") -> (forall f, f ∈ hs -> only (spares k) (code f)) ->
        h_values (rw_hdr (cn_rw c2)) k = h_values (headers_of l1) k /\
        forall s h, rw_sent (cn_rw c2) = Some (s, h) -> h_values h k = h_values (headers_of l1) k)).
    { destruct (next x0 c1) as [r2 [x2 c2]] eqn:Hn. exists r2, x2, c2. split; [done|]. unfold next in Hn.
      assert (fit (set_index x0 (S (x_index x0)))) as Hfit by done.
      assert ((x_hlen (set_index x0 (S (x_index x0))) <= x_index (set_index x0 (S (x_index x0))) + length hs)%nat) as Hle by (simpl; lia).
      pose proof Hn as T. apply crun_total in T as (T1 & _); [|done|done]. split; [done|].
      pose proof Hn as T. apply (crun_turns sniff parse_form code (g :: hs)) in T as (l2 & L1 & L2); [|done|done|done].
      split. { exists l2. split; [|done]. rewrite L1. cbn [log cn_log]. rewrite Hc1. cbn [app]. by rewrite <- app_assoc. }
      split. { intros ->. by eapply crun_done. }
      intros k Hkct Hk.
      pose proof (spared_invariant k (h_values (headers_of l1) k) Hkct) as Hinv.
      eapply (crun_inv_from sniff parse_form code _ _ _ Hinv) in Hn; [exact Hn| |done|done|].
      - intros i f Hge Hf'. simpl in Hge, Hf'. destruct i as [|i]; [lia|]. simpl in Hf'. apply Hk. by eapply elem_of_list_lookup_2.
      - unfold spared. cbn [log cn_rw]. rewrite Hhd. split; [done|]. rewrite Hrw. done. }
    destruct Hrest as (r2 & x2 & c2 & Hn & Hns & (l2 & Hl2 & Hturns) & Hd & Hk). rewrite Hn in H.
    assert (exists l4, cn_log c' = EvStart 0 :: l1 ++ EvNext :: (l2 ++ l4) /\ cn_rw c' = cn_rw c2 /\
      starts l4 = [] /\ sends l4 = [] /\ first_code l4 = None /\ en = r2) as (l4 & Hc' & Hrw' & Hs4 & _ & Hf4 & ->).
    { destruct r2 as [|v|]; [|injection H as <- <- <-; exists []; by rewrite app_nil_r|done].
      cbn iota in H. specialize (Hd eq_refl).
      assert (Hfin : forall w, cn_log (log c2 w) = EvStart 0 :: l1 ++ EvNext :: (l2 ++ [w])).
      { intros w. cbn [log cn_log]. rewrite Hl2. cbn [app]. by rewrite <- app_assoc. }
      destruct (x_written x2) eqn:Hw.
      - cbn [set_index x_written] in H. rewrite Hw in H. injection H as <- <- <-. exists [EvEnd 0]. by rewrite Hfin.
      - destruct Hd as [?|Hge]; [done|]. cbn [set_index x_written] in H. rewrite Hw in H.
        rewrite crun_stop in H by (cbn [set_index x_index x_hlen]; lia).
        injection H as <- <- <-. exists [EvEnd 0]. by rewrite Hfin. }
    assert (Hnr : first_code l1 = None).
    { unfold l1. rewrite first_code_cons. done. }
    assert (Hpre : starts (EvStart 0 :: l1 ++ [EvNext]) = [0%nat] /\ first_code (EvStart 0 :: l1 ++ [EvNext]) = None).
    { split.
      - change (starts (EvStart 0 :: l1 ++ [EvNext])) with (0%nat :: starts (l1 ++ [EvNext (V:=V)])).
        rewrite starts_app. change (starts l1) with (starts l). by rewrite Hs.
      - rewrite first_code_cons, first_code_app, Hnr. done. }
    destruct Hpre as [Hp1 Hp2].
    exists l1, (l2 ++ l4). split; [exact Hc'|]. split; [exact Hs|]. split; [by rewrite responded_iff, Hnr|]. split; [exact Hsim|].
    split; [|intros k Hk1 Hk2; rewrite Hrw'; by apply Hk].
    intros Hne. inversion Hturns as [E1 E2|i f la lb e Hf1 Hf2 Hf3 E1 E2|i f la v Hf1 Hf2 E1 E2]; subst.
    + exfalso. assert (~ responded (cn_log c')) as Hnr'.
      { rewrite Hc', responded_iff. cbn [app]. change (EvStart 0 :: l1 ++ EvNext :: l4) with ((EvStart 0 :: l1) ++ [EvNext] ++ l4).
        rewrite app_assoc, first_code_app. change ((EvStart 0 :: l1) ++ [EvNext]) with (EvStart 0 :: l1 ++ [EvNext]). by rewrite Hp2, Hf4. }
      specialize (Hall eq_refl Hnr'). rewrite Hc' in Hall. cbn [app] in Hall.
      change (EvStart 0 :: l1 ++ EvNext :: l4) with ((EvStart 0 :: l1) ++ [EvNext] ++ l4) in Hall.
      rewrite app_assoc, starts_app in Hall. change ((EvStart 0 :: l1) ++ [EvNext]) with (EvStart 0 :: l1 ++ [EvNext]) in Hall.
      rewrite Hp1, Hs4 in Hall. apply (f_equal length) in Hall. rewrite seq_length in Hall. simpl in Hall.
      destruct hs; [done|simpl in Hall; lia].
    + assert (i = 1%nat) as ->; [|by eexists].
      specialize (Hgap (EvStart 0 :: l1 ++ [EvNext]) (EvStart i) ((la ++ EvEnd i :: lb) ++ l4)).
      cbn [no_gap] in Hgap. rewrite responded_iff, Hp1, Hp2 in Hgap.
      assert (E0 : [0%nat] = seq 0 i); [|apply (f_equal length) in E0; rewrite seq_length in E0; simpl in E0; lia].
      apply Hgap; [|by intros [? ?]]. rewrite Hc'. cbn [app]. rewrite <- ?app_assoc. cbn [app]. rewrite <- ?app_assoc. done.
    + assert (i = 1%nat) as ->; [|by eexists].
      specialize (Hgap (EvStart 0 :: l1 ++ [EvNext]) (EvStart i) (la ++ l4)).
      cbn [no_gap] in Hgap. rewrite responded_iff, Hp1, Hp2 in Hgap.
      assert (E0 : [0%nat] = seq 0 i); [|apply (f_equal length) in E0; rewrite seq_length in E0; simpl in E0; lia].
      apply Hgap; [|by intros [? ?]]. rewrite Hc'. cbn [app]. rewrite <- ?app_assoc. cbn [app]. rewrite <- ?app_assoc. done.
Qed.
End Facts.

Section Engine.
Context {A V : Type}.
Variable re_ok : gostr -> bool.
Variable re_find : gostr -> gostr -> option (list gostr).
Variable sniff : gostr -> gostr.
Variable parse_form : bool -> request -> gostr * bool -> gmap gostr (list gostr) * bool * gostr.
Variable code : handler A -> prog V.
Variables (ops : list (rop A)) (r0 : nat) (opts : list (opt A)) (e : engine A) (id : nat) (x : ctxobj A V)
  (r : request) (body : rbody) (en : ending) (px : option (ctxobj A V)) (c' : conn V) (cfg : CORSConfig).
Hypothesis He : engine_of re_ok ops r0 opts e.
Hypothesis Hs : ServeHTTP re_find sniff parse_form code e id x (arrive r body) = (en, px, c').
Hypothesis Hne : starts (cn_log c') <> [].
Hypothesis Hd : forall hs, dispatched re_ok re_find e r hs -> exists g hs', hs = g :: hs' /\ code g = CORS cfg.

Lemma cors_answers : rq_method r = L "OPTIONS" ->
  en = EDone /\ starts (cn_log c') = [0%nat] /\
  exists h, finish sniff (cn_rw c') = (204, h, []) /\ cors_preflight cfg r h.
Proof.
  intros Hm.
  destruct (serve_ran re_ok re_find sniff parse_form code _ _ _ _ _ _ _ _ _ _ _ He Hs Hne) as (hs0 & ps & n & Hdis & Hran).
  destruct (Hd _ Hdis) as (g & hs & -> & Hg).
  apply (cors_run sniff parse_form code g cfg hs Hg) in Hran as [Hopt _].
  destruct (Hopt Hm) as (H1 & H2 & _ & h & H3 & H4 & H5). split; [done|]. split; [done|].
  exists h. split; [|done]. unfold finish. by rewrite H3, H4.
Qed.

Lemma finish_values w k : canon k <> canon (L "Content-Type") ->
  h_values (snd (fst (finish sniff w))) k = h_values (match rw_sent w with Some s => snd s | None => rw_hdr w end) k.
Proof.
  intros Hk. unfold finish. destruct (rw_sent w) as [[n h]|]; cbn [fst snd];
    destruct (_ && _); try done; unfold h_set, h_values; by rewrite lookup_insert_ne.
Qed.

Lemma cors_passes : rq_method r <> L "OPTIONS" ->
  exists g hs l1 l2, dispatched re_ok re_find e r (g :: hs) /\ cn_log c' = EvStart 0 :: l1 ++ EvNext :: l2 /\
    starts l1 = [] /\ ~ responded l1 /\ cors_simple cfg r (headers_of l1) /\
    (hs <> [] -> exists l3, l2 = EvStart 1 :: l3) /\
    forall k, canon k <> canon (L "Content-Type") -> (forall f, f ∈ hs -> only (spares k) (code f)) ->
      h_values (snd (fst (finish sniff (cn_rw c')))) k = h_values (headers_of l1) k.
Proof.
  intros Hm.
  destruct (serve_ran re_ok re_find sniff parse_form code _ _ _ _ _ _ _ _ _ _ _ He Hs Hne) as (hs0 & ps & n & Hdis & Hran).
  destruct (Hd _ Hdis) as (g & hs & -> & Hg).
  apply (cors_run sniff parse_form code g cfg hs Hg) in Hran as [_ Hopt].
  destruct (Hopt Hm) as (l1 & l2 & H1 & H2 & H3 & H4 & H5 & H6). exists g, hs, l1, l2. split_and!; try done.
  intros k Hk Hf. destruct (H6 k Hk Hf) as [H7 H8]. rewrite finish_values by done.
  destruct (rw_sent (cn_rw c')) as [[s h]|]; [by eapply H8|done].
Qed.
End Engine.
