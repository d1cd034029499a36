(** Facts about the static file handler. *)
From Verif Require Import Base GoStr GoStrFacts Strconv Pattern PatternSpec PatternFacts Tree TreeSpec Header Router PathClean Ctx CtxFacts
  Util UtilSpec UtilFacts Getters Content ContentFacts TraceSpec Engine EngineSpec ServeFacts ServeProps ServeTop ServeDispatch ParamSpec StaticReg Static StaticSpec.
Local Open Scope Z_scope.

(** ** The path that is opened *)
Lemma clean_segs_app b st l1 l2 : clean_segs b st (l1 ++ l2) = clean_segs b (clean_segs b st l1) l2.
Proof.
  revert st. induction l1 as [|x l1 IH]; intros st; [done|]. cbn [app clean_segs].
  destruct (seqb x [] || seqb x (L ".")); [apply IH|]. destruct (seqb x (L "..")); [|apply IH].
  destruct st as [|y st]; [apply IH|]. destruct (seqb y (L "..")); apply IH.
Qed.
Lemma clean_segs_push b st l : Forall proper l -> clean_segs b st l = rev l ++ st.
Proof.
  intros H. revert st. induction H as [|x l Hx Hl IH]; intros st; [done|]. cbn [clean_segs rev].
  destruct Hx as (H1 & H2 & H3 & _). apply seqb_false in H1, H2, H3. rewrite H1, H2, H3. cbn [orb].
  rewrite IH, <- app_assoc. done.
Qed.
Lemma split_byte_app c a b : split_byte c (a ++ c :: b) = split_byte c a ++ split_byte c b.
Proof.
  induction a as [|z a IH]; cbn [app split_byte].
  - by rewrite Ascii.eqb_refl.
  - destruct (Ascii.eqb z c); [by rewrite IH|]. rewrite IH. by destruct (split_byte c a) as [|? ?] eqn:E; [destruct a; simpl in E; repeat case_match; discriminate|].
Qed.
Lemma Clean_rooted q : exists l, Clean ("/"%char :: q) = slashed l /\ Forall proper l /\ l = walk [] (split_byte "/" q).
Proof.
  exists (rev (clean_segs true [] (split_byte "/" q))). split; [|split].
  - unfold Clean. change (Ascii.eqb "/" "/") with true. cbn [split_byte]. change (Ascii.eqb "/" "/") with true.
    cbn [clean_segs]. rewrite seqb_refl. done.
  - apply Forall_rev. apply clean_segs_proper; [constructor|apply split_byte_no_sep].
  - symmetry. apply (walk_clean []); [constructor|apply split_byte_no_sep].
Qed.
Lemma join_app_nonempty a b : a <> [] -> b <> [] -> join (L "/") (a ++ b) = join (L "/") a ++ slashed b.
Proof.
  intros Ha Hb. induction a as [|x a IH]; [done|]. destruct a as [|y a].
  - cbn [app]. destruct b as [|z b]; [done|]. done.
  - cbn [app]. change (join (L "/") (x :: y :: a ++ b)) with (x ++ L "/" ++ join (L "/") ((y :: a) ++ b)).
    rewrite IH by done. change (join (L "/") (x :: y :: a)) with (x ++ L "/" ++ join (L "/") (y :: a)). by rewrite <- !app_assoc.
Qed.
Lemma join_nonempty l : Forall proper l -> l <> [] -> join (L "/") l <> [].
Proof. intros H Hne. destruct H as [|x l Hx Hl]; [done|]. destruct x as [|a x]; [by destruct Hx|]. by destruct l. Qed.

(** segments of a clean path *)
Definition dots (x : gostr) : Prop := x <> [] /\ x <> L "." /\ "/"%char ∉ x.
Lemma clean_segs_dots b st l : Forall dots st -> Forall (fun x => "/"%char ∉ x) l -> Forall dots (clean_segs b st l).
Proof.
  intros Hst Hl. revert st Hst. induction Hl as [|x l Hx Hl IH]; intros st Hst; [done|]. cbn [clean_segs].
  destruct (seqb_spec x []); cbn [orb]; [by apply IH|]. destruct (seqb_spec x (L ".")); [by apply IH|].
  assert (dots x) as Hd by done.
  destruct (seqb x (L "..")).
  - destruct st as [|y st]; [apply IH; destruct b; [constructor|constructor; [exact Hd|constructor]]|]. inversion Hst; subst.
    destruct (seqb y (L "..")); apply IH; [constructor; done|done].
  - apply IH. by constructor.
Qed.
Lemma join_dots l : Forall dots l -> l <> [] -> join (L "/") l <> [] /\ join (L "/") l <> L "." /\ forall s, join (L "/") l <> "/"%char :: s.
Proof.
  intros H Hne. destruct H as [|x l (H1 & H2 & H3) Hl]; [done|]. destruct l as [|y l].
  - cbn [join]. split_and!; [done|done|]. intros s ->. apply H3. left.
  - cbn [join]. destruct x as [|a x]; [done|]. split_and!; [done| |].
    + intros E. cbn in E. injection E as _ E. by destruct x.
    + intros s E. cbn in E. injection E as -> _. apply H3. left.
Qed.
Lemma dir_open_below root name : exists l,
  dir_open root name = below (Clean root) l /\ Forall proper l /\ l = walk [] (split_byte "/" name).
Proof.
  destruct (Clean_rooted name) as (l & Hc & Hl & Hw). exists l. split; [|done]. unfold dir_open. rewrite Hc.
  set (rt := if seqb root [] then L "." else root).
  assert (rt <> [] /\ Clean rt = Clean root) as [Hr <-].
  { unfold rt. destruct (seqb_spec root []) as [->|]; done. }
  clearbody rt. clear root. unfold filepath_Join. cbn [List.filter]. apply seqb_false in Hr as Hr'. rewrite Hr'. cbn [negb].
  change (seqb (slashed l) []) with false. cbn [negb].
  change (join (L "/") [rt; slashed l]) with (rt ++ "/"%char :: "/"%char :: join (L "/") l).
  destruct rt as [|c rt]; [done|]. clear Hr Hr'. unfold Clean at 1. cbn [app].
  set (rooted := Ascii.eqb c "/").
  assert (forall out, (if rooted then "/"%char :: out else match out with [] => L "." | _ => out end) =
    if rooted then "/"%char :: out else match out with [] => L "." | _ => out end) as _ by done.
  assert (clean_segs rooted [] (split_byte "/" (c :: rt ++ "/"%char :: "/"%char :: join (L "/") l)) =
          rev l ++ clean_segs rooted [] (split_byte "/" (c :: rt))) as ->.
  { change (c :: rt ++ "/"%char :: "/"%char :: join (L "/") l) with ((c :: rt) ++ "/"%char :: "/"%char :: join (L "/") l).
    rewrite split_byte_app, clean_segs_app.
    change (split_byte "/" ("/"%char :: join (L "/") l)) with ([] :: split_byte "/" (join (L "/") l)).
    cbn [clean_segs]. rewrite seqb_refl. cbn [orb].
    destruct l as [|x l]; [done|]. rewrite split_join_proper by done. by rewrite clean_segs_push. }
  rewrite rev_app_distr, rev_involutive.
  assert (Forall dots (rev (clean_segs rooted [] (split_byte "/" (c :: rt))))) as Hd.
  { apply Forall_rev. apply clean_segs_dots; [constructor|apply split_byte_no_sep]. }
  unfold Clean. fold rooted. set (d := rev (clean_segs rooted [] (split_byte "/" (c :: rt)))) in *. clearbody d. clear Hc Hw.
  destruct l as [|x l]; [by rewrite app_nil_r|].
  destruct d as [|y d].
  - cbn [app]. change (join (L "/") []) with (@nil ascii). unfold below. destruct rooted.
    + rewrite decide_False by done. rewrite decide_True by done. done.
    + rewrite decide_True by done. destruct (join (L "/") (x :: l)) eqn:E; [|done]. exfalso. by apply (join_nonempty _ Hl).
  - destruct (join_dots _ Hd) as (J1 & J2 & J3); [done|]. rewrite join_app_nonempty by done. unfold below. destruct rooted.
    + rewrite decide_False by (intros E; injection E; done). rewrite decide_False; [done|]. intros E. injection E as E. by apply J1.
    + destruct (join (L "/") (y :: d)) as [|z j] eqn:E; [done|].
      rewrite decide_False by done. rewrite decide_False by (intros E'; by apply (J3 [])). done.
Qed.

(** the last byte of a clean path *)
Lemma has_suffix_last b s : has_suffix [b] s = true <-> exists t, s = t ++ [b].
Proof. apply has_suffix_spec. Qed.
Lemma join_no_trailing l : Forall (fun x => x <> [] /\ "/"%char ∉ x) l -> forall t, join (L "/") l <> t ++ ["/"%char].
Proof.
  intros H. induction H as [|x l [H1 H2] Hl IH]; intros t E; [by destruct t|].
  destruct l as [|y l].
  - cbn [join] in E. subst x. apply H2. set_solver.
  - rewrite (join_cons _ x (y :: l)) in E by done.
    destruct (join (L "/") (y :: l)) as [|a w] eqn:Ew using rev_ind.
    + inversion Hl as [|? ? [Hy _] _]; subst. destruct y as [|b y]; [done|]. by destruct l.
    + clear IHw. rewrite !app_assoc in E. apply app_inj_tail in E as [_ ->]. by eapply IH.
Qed.
Lemma Clean_trailing p : has_suffix (L "/") (Clean p) = true -> Clean p = L "/".
Proof.
  intros H. apply has_suffix_last in H as (t & E). unfold Clean in *. destruct p as [|c p]; [by destruct t as [|? [|]]|].
  set (b := Ascii.eqb c "/") in *.
  pose proof (clean_segs_dots b [] (split_byte "/" (c :: p)) (Forall_nil_2 _) (split_byte_no_sep _ _)) as Hd.
  set (l := rev (clean_segs b [] (split_byte "/" (c :: p)))) in *.
  assert (Forall (fun x => x <> [] /\ "/"%char ∉ x) l) as Hl.
  { apply Forall_rev. eapply Forall_impl; [exact Hd|]. by intros x (? & ? & ?). }
  destruct b.
  - destruct t as [|a t]; [by inversion E|]. inversion E as [[Ha E']]. by apply join_no_trailing in E'.
  - destruct (join (L "/") l) as [|a w] eqn:Ej; [by destruct t as [|? [|]]|]. rewrite <- Ej in E. by apply join_no_trailing in E.
Qed.

(** ** The handler *)
Section Handler.
Context {A V F O : Type}.
Variable sniff : gostr -> gostr.
Variable parse_form : bool -> request -> gostr * bool -> gmap gostr (list gostr) * bool * gostr.
Variable location : request -> gostr -> gostr.
Variable page : request -> gostr -> Z -> gostr.
Variable serve : request -> gostr -> gostr -> gostr -> F -> list (gostr * option gostr) * Z * list gostr.
Variable serve_file : request -> gostr -> gostr -> gostr -> gostr -> O -> list (gostr * option gostr) * Z * list gostr.
Implicit Types x : ctxobj A V.
Implicit Types c : conn V.
Local Notation call := (call sniff parse_form).
Local Notation pexec := (pexec sniff parse_form).
Local Notation handler_ := (static_handler (V:=V) location page serve serve_file).

Lemma exec_raw_writes next ds k x : forall c n h, rw_sent (cn_rw c) = Some (n, h) ->
  exists c', pexec next (seqp (map ORawWrite ds) k) x c = pexec next k x c' /\
    rw_sent (cn_rw c') = Some (n, h) /\ cn_req c' = cn_req c /\
    rw_body (cn_rw c') = rw_body (cn_rw c) ++ if body_allowed n then concat ds else [].
Proof.
  induction ds as [|d ds IH]; intros c n h Hs.
  - exists c. cbn [map seqp fold_right]. split_and!; [done|done|done|]. destruct (body_allowed n); by rewrite app_nil_r.
  - cbn [map]. rewrite pexec_seqp. unfold Ctx.call at 1. cbn [Ctx.do_op]. cbn iota.
    set (c1 := log (raw_Write d c) (EvCall (ORawWrite d) (Norm tt))).
    assert (Hrw : cn_rw c1 = mkRw (rw_hdr (cn_rw c)) (Some (n, h)) (rw_body (cn_rw c) ++ if body_allowed n then d else [])).
    { unfold c1. cbn [log cn_rw]. by apply raw_Write_rw. }
    destruct (IH c1 n h) as (c' & H1 & H2 & H3 & H4); [by rewrite Hrw|].
    exists c'. split_and!; [done|done|rewrite H3; unfold c1; cbn [log cn_req]; by rewrite raw_Write_req|].
    rewrite H4, Hrw. cbn [rw_body concat]. destruct (body_allowed n); by rewrite <- app_assoc.
Qed.
Lemma exec_puts next hs k x : forall c,
  exists c', pexec next (seqp (map put_header hs) k) x c = pexec next k x c' /\
    cn_rw c' = mkRw (put_headers hs (rw_hdr (cn_rw c))) (rw_sent (cn_rw c)) (rw_body (cn_rw c)) /\ cn_req c' = cn_req c.
Proof.
  induction hs as [|[key [v|]] hs IH]; intros c.
  - exists c. split_and!; [done| |done]. by destruct (cn_rw c).
  - cbn [map]. rewrite pexec_seqp. cbn [put_header]. unfold Ctx.call at 1. cbn [Ctx.do_op]. cbn iota.
    match goal with |- context [pexec next _ x ?c1] => destruct (IH c1) as (c' & H1 & H2 & H3) end.
    exists c'. split; [done|]. split; [|done]. rewrite H2. done.
  - cbn [map]. rewrite pexec_seqp. cbn [put_header]. unfold Ctx.call at 1. cbn [Ctx.do_op]. cbn iota.
    match goal with |- context [pexec next _ x ?c1] => destruct (IH c1) as (c' & H1 & H2 & H3) end.
    exists c'. split; [done|]. split; [|done]. rewrite H2. done.
Qed.
Lemma exec_raw_header next n k x c : rw_sent (cn_rw c) = None -> valid_code n = true ->
  exists c', pexec next (seqp [ORawWriteHeader n] k) x c = pexec next k x c' /\
    cn_rw c' = mkRw (rw_hdr (cn_rw c)) (Some (n, rw_hdr (cn_rw c))) (rw_body (cn_rw c)) /\ cn_req c' = cn_req c.
Proof.
  intros Hs Hn. rewrite pexec_seqp. unfold Ctx.call at 1. cbn [Ctx.do_op]. unfold raw_WriteHeader. cbn [log cn_rw].
  rewrite Hs, Hn. cbn iota. eexists. split; [reflexivity|]. done.
Qed.
Lemma exec_deliver next hs n out k x c : rw_sent (cn_rw c) = None -> valid_code n = true ->
  exists c', pexec next (deliver true (hs, n, out) k) x c = pexec next k x c' /\
    rw_sent (cn_rw c') = Some (n, put_headers hs (rw_hdr (cn_rw c))) /\ cn_req c' = cn_req c /\
    rw_body (cn_rw c') = rw_body (cn_rw c) ++ if body_allowed n then concat out else [].
Proof.
  intros Hs Hn. unfold deliver. cbn iota.
  change (map (fun d => ORawWrite d) out) with (map (@ORawWrite V) out). rewrite !seqp_app.
  destruct (exec_puts next hs (seqp [ORawWriteHeader n] (seqp (map ORawWrite out) k)) x c) as (c1 & H1 & H2 & H3). rewrite H1.
  destruct (exec_raw_header next n (seqp (map ORawWrite out) k) x c1) as (c2 & K1 & K2 & K3); [by rewrite H2|done|]. rewrite K1.
  destruct (exec_raw_writes next out k x c2 n (put_headers hs (rw_hdr (cn_rw c)))) as (c3 & L1 & L2 & L3 & L4); [by rewrite K2, H2|].
  exists c3. split_and!; [done|done|congruence|]. by rewrite L4, K2, H2.
Qed.
Lemma exec_content next f k x c hs n out :
  rw_sent (cn_rw c) = None ->
  let h := rw_hdr (cn_rw c) in
  serve (cn_req c) (h_get h (L "Content-Type")) (h_get h (L "Etag")) (h_get h (L "Content-Encoding")) f = (hs, n, out) ->
  valid_code n = true ->
  exists c', pexec next (ServeContent serve true f k) x c = pexec next k x c' /\
    rw_sent (cn_rw c') = Some (n, put_headers hs h) /\
    rw_body (cn_rw c') = rw_body (cn_rw c) ++ if body_allowed n then concat out else [].
Proof.
  intros Hs h Hf Hn. unfold ServeContent. cbn [Ctx.pexec]. unfold Ctx.call at 1 2 3 4. cbn [Ctx.do_op]. cbn iota. cbn [log cn_req cn_rw].
  unfold HeaderContentType. fold h. rewrite Hf.
  match goal with |- context [pexec next _ x ?c1] => destruct (exec_deliver next hs n out k x c1) as (c' & H1 & H2 & _ & H4) end; [done|done|].
  exists c'. split_and!; done.
Qed.
Lemma exec_file next path os k x c hs n out :
  rw_sent (cn_rw c) = None ->
  let h := rw_hdr (cn_rw c) in
  serve_file (cn_req c) (h_get h (L "Content-Type")) (h_get h (L "Etag")) (h_get h (L "Content-Encoding")) path os = (hs, n, out) ->
  valid_code n = true ->
  exists c', pexec next (File serve_file path os k) x c = pexec next k x c' /\
    rw_sent (cn_rw c') = Some (n, put_headers hs h) /\
    rw_body (cn_rw c') = rw_body (cn_rw c) ++ if body_allowed n then concat out else [].
Proof.
  intros Hs h Hf Hn. unfold File. cbn [Ctx.pexec]. unfold Ctx.call at 1 2 3 4. cbn [Ctx.do_op]. cbn iota. cbn [log cn_req cn_rw].
  unfold HeaderContentType. fold h. rewrite Hf.
  match goal with |- context [pexec next _ x ?c1] => destruct (exec_deliver next hs n out k x c1) as (c' & H1 & H2 & _ & H4) end; [done|done|].
  exists c'. split_and!; done.
Qed.

(** the Expires header *)
Definition expiring_on (o : static_opts) (h : header) : header :=
  match so_expires o with Some v => h_set h (L "Expires") v | None => h end.
Lemma exec_expires next (o : static_opts) k x c :
  exists c', pexec next (match so_expires o with Some v => SetHeader (L "Expires") v k | None => k end) x c = pexec next k x c' /\
    cn_rw c' = mkRw (expiring_on o (rw_hdr (cn_rw c))) (rw_sent (cn_rw c)) (rw_body (cn_rw c)) /\ cn_req c' = cn_req c.
Proof.
  unfold expiring_on. destruct (so_expires o) as [v|].
  - unfold SetHeader. rewrite pexec_seqp, call_HeaderSet. cbn iota. eexists. split; [reflexivity|]. done.
  - exists c. split_and!; [done| |done]. by destruct (cn_rw c).
Qed.
Lemma exec_static next o open os x c (m : Params) name : x_params x = Some m -> m !! L "*0" = Some name ->
  exists c', pexec next (handler_ o open os) x c = pexec next (static_named location page serve serve_file o open os name) x c' /\
    cn_rw c' = cn_rw c /\ cn_req c' = cn_req c.
Proof.
  intros Hx Hm. unfold static_handler. cbn [Ctx.pexec]. unfold Ctx.call at 1. cbn [Ctx.do_op]. cbn iota. rewrite Hx.
  assert (Params_String (Some m) (L "*0") = Ok name) as -> by (unfold Params_String; cbn; by rewrite Hm).
  eexists. split; [reflexivity|]. done.
Qed.

(** the headers a regular file is announced_on with *)
Definition announced_on (o : static_opts) (mtime size : Z) (base : gostr) (h : header) : header :=
  if decide (so_etag o = 0%nat) then expiring_on o h else h_set (expiring_on o h) (L "ETag") (static_tag (so_etag o) mtime size base).

Lemma static_content next (o : static_opts) open os x c (m : Params) name mtime size base f hs n out :
  x_params x = Some m -> m !! L "*0" = Some name -> open name = Regular mtime size base f ->
  rw_sent (cn_rw c) = None ->
  (so_etag o <> 0%nat -> h_get (rq_header (cn_req c)) (L "If-None-Match") <> static_tag (so_etag o) mtime size base) ->
  let h := announced_on o mtime size base (rw_hdr (cn_rw c)) in
  serve (cn_req c) (h_get h (L "Content-Type")) (h_get h (L "Etag")) (h_get h (L "Content-Encoding")) f = (hs, n, out) ->
  valid_code n = true ->
  exists c', pexec next (handler_ o open os) x c = (EDone, (x, c')) /\
    rw_sent (cn_rw c') = Some (n, put_headers hs h) /\
    rw_body (cn_rw c') = rw_body (cn_rw c) ++ if body_allowed n then concat out else [].
Proof.
  intros Hx Hm Ho Hs Hne h Hf Hn. destruct (exec_static next o open os x c m name Hx Hm) as (c1 & E1 & W1 & R1).
  rewrite E1. clear E1. unfold static_named. rewrite Ho. cbv zeta.
  match goal with |- context [pexec next (match so_expires o with Some v => SetHeader _ v ?k | None => _ end) x c1] =>
    destruct (exec_expires next o k x c1) as (c2 & E2 & W2 & R2) end.
  rewrite E2. clear E2. rewrite W1 in W2. unfold announced_on in h. destruct (so_etag o =? 0)%nat eqn:Et.
  - apply Nat.eqb_eq in Et. destruct (decide (so_etag o = 0%nat)) as [_|?]; [|done].
    destruct (exec_content next f PRet x c2 hs n out) as (c' & E & S' & B'); [by rewrite W2|by rewrite W2, R2, R1|done|].
    exists c'. rewrite E, S', B', W2. done.
  - apply Nat.eqb_neq in Et. destruct (decide (so_etag o = 0%nat)) as [?|_]; [done|].
    unfold SetHeader. rewrite pexec_seqp, call_HeaderSet. cbn iota. cbn [seqp fold_right].
    set (c3 := log (set_hdr c2 _) _).
    cbn [Ctx.pexec]. unfold Ctx.call at 1. cbn [Ctx.do_op]. cbn iota.
    set (c4 := log c3 _).
    assert (cn_rw c4 = mkRw h None (rw_body (cn_rw c)) /\ cn_req c4 = cn_req c) as [W4 R4].
    { unfold c4, c3. cbn [log cn_rw cn_req set_hdr set_rw]. rewrite W2, R2, R1. cbn [rw_hdr rw_sent rw_body]. by rewrite Hs. }
    change (cn_req c3) with (cn_req c4). rewrite R4.
    specialize (Hne Et). apply seqb_false in Hne. rewrite Hne.
    destruct (exec_content next f PRet x c4 hs n out) as (c' & E & S' & B'); [by rewrite W4|by rewrite W4, R4|done|].
    exists c'. rewrite E, S', B', W4. done.
Qed.
Lemma static_not_modified next (o : static_opts) open os x c (m : Params) name mtime size base f :
  x_params x = Some m -> m !! L "*0" = Some name -> open name = Regular mtime size base f ->
  rw_sent (cn_rw c) = None -> x_written x = false -> so_etag o <> 0%nat ->
  let tag := static_tag (so_etag o) mtime size base in
  h_get (rq_header (cn_req c)) (L "If-None-Match") = tag ->
  exists x' c', pexec next (handler_ o open os) x c = (EDone, (x', c')) /\
    x_written x' = true /\ x_status x' = 304 /\
    rw_sent (cn_rw c') = Some (304, announced_on o mtime size base (rw_hdr (cn_rw c))) /\
    rw_body (cn_rw c') = rw_body (cn_rw c).
Proof.
  intros Hx Hm Ho Hs Hw Et tag Htag. destruct (exec_static next o open os x c m name Hx Hm) as (c1 & E1 & W1 & R1).
  rewrite E1. clear E1. unfold static_named. rewrite Ho. cbv zeta.
  match goal with |- context [pexec next (match so_expires o with Some v => SetHeader _ v ?k | None => _ end) x c1] =>
    destruct (exec_expires next o k x c1) as (c2 & E2 & W2 & R2) end.
  rewrite E2. clear E2. rewrite W1 in W2. rewrite (proj2 (Nat.eqb_neq _ _) Et).
  unfold SetHeader. rewrite pexec_seqp, call_HeaderSet. cbn iota. cbn [seqp fold_right].
  set (c3 := log (set_hdr c2 _) _).
  cbn [Ctx.pexec]. unfold Ctx.call at 1. cbn [Ctx.do_op]. cbn iota.
  set (c4 := log c3 _).
  assert (cn_rw c4 = mkRw (announced_on o mtime size base (rw_hdr (cn_rw c))) None (rw_body (cn_rw c)) /\ cn_req c4 = cn_req c) as [W4 R4].
  { unfold c4, c3, announced_on. rewrite decide_False by done. cbn [log cn_rw cn_req set_hdr set_rw]. rewrite W2, R2, R1.
    cbn [rw_hdr rw_sent rw_body]. by rewrite Hs. }
  change (cn_req c3) with (cn_req c4). rewrite R4, Htag. unfold tag. rewrite seqb_refl. clearbody c4. cbn [Ctx.pexec].
  rewrite call_WriteHeader; [|done|by rewrite W4|done]. cbn iota. eexists _, _. split; [reflexivity|].
  cbn. rewrite W4. done.
Qed.

Lemma static_missing next (o : static_opts) open os x c (m : Params) name :
  x_params x = Some m -> m !! L "*0" = Some name -> open name = Absent \/ open name = NoStat ->
  rw_sent (cn_rw c) = None -> x_written x = false ->
  exists x' c', pexec next (handler_ o open os) x c = (EDone, (x', c')) /\ x_written x' = true /\ x_status x' = 404 /\
    rw_sent (cn_rw c') = Some (404, rw_hdr (cn_rw c)) /\ rw_body (cn_rw c') = rw_body (cn_rw c).
Proof.
  intros Hx Hm Ho Hs Hw. destruct (exec_static next o open os x c m name Hx Hm) as (c1 & E1 & W1 & R1).
  rewrite E1. clear E1. unfold static_named.
  assert (exists x' c', pexec next (seqp [OWriteHeader 404] PRet) x c1 = (EDone, (x', c')) /\ x_written x' = true /\ x_status x' = 404 /\
    rw_sent (cn_rw c') = Some (404, rw_hdr (cn_rw c)) /\ rw_body (cn_rw c') = rw_body (cn_rw c)) as G.
  { rewrite pexec_seqp, call_WriteHeader; [|done|by rewrite W1|done]. cbn iota. eexists _, _. split; [reflexivity|].
    cbn. by rewrite W1. }
  destruct Ho as [->| ->]; exact G.
Qed.

Lemma static_folder next (o : static_opts) open os x c (m : Params) name :
  x_params x = Some m -> m !! L "*0" = Some name -> open name = Folder ->
  exists c', pexec next (handler_ o open os) x c =
    pexec next (let p := rq_path (cn_req c) in
                if has_suffix (L "/") p || has_suffix (L "/") (Clean p) then File serve_file (filepath_Join [name; so_index o]) os PRet
                else RawRedirect location page (Clean p ++ L "/") 302 PRet) x c' /\
    cn_rw c' = mkRw (expiring_on o (rw_hdr (cn_rw c))) (rw_sent (cn_rw c)) (rw_body (cn_rw c)) /\ cn_req c' = cn_req c.
Proof.
  intros Hx Hm Ho. destruct (exec_static next o open os x c m name Hx Hm) as (c1 & E1 & W1 & R1).
  rewrite E1. clear E1. unfold static_named. rewrite Ho. cbv zeta.
  match goal with |- context [pexec next (match so_expires o with Some v => SetHeader _ v ?k | None => _ end) x c1] =>
    destruct (exec_expires next o k x c1) as (c2 & E2 & W2 & R2) end.
  rewrite E2. clear E2. rewrite W1 in W2.
  cbn [Ctx.pexec]. unfold Ctx.call at 1. cbn [Ctx.do_op]. cbn iota.
  exists (log c2 (EvCall ORequest (Norm (cn_req c)))). rewrite R2, R1. split; [|cbn [log cn_rw cn_req]; split; [exact W2|congruence]].
  match goal with |- Ctx.pexec _ _ _ ?p _ _ = Ctx.pexec _ _ _ ?q _ _ => assert (p = q) as ->; [|reflexivity] end.
  destruct (has_suffix (L "/") (rq_path (cn_req c))) eqn:E; cbn [orb].
  - assert (has_suffix (L "/") (Clean (rq_path (cn_req c)) ++ L "/") = true) as -> by (apply has_suffix_spec; by eexists). done.
  - destruct (has_suffix (L "/") (Clean (rq_path (cn_req c)))); done.
Qed.

Lemma exec_raw_redirect next uri x c : rw_sent (cn_rw c) = None -> h_get (rw_hdr (cn_rw c)) (L "Content-Type") = [] ->
  rq_method (cn_req c) = L "GET" \/ rq_method (cn_req c) = L "HEAD" ->
  let loc := location (cn_req c) uri in
  exists c', pexec next (RawRedirect location page uri 302 PRet) x c = (EDone, (x, c')) /\
    rw_sent (cn_rw c') = Some (302, h_set (h_set (rw_hdr (cn_rw c)) (L "Location") loc) (L "Content-Type") (L "text/html; charset=utf-8")) /\
    rw_body (cn_rw c') = rw_body (cn_rw c) ++ if decide (rq_method (cn_req c) = L "GET") then page (cn_req c) uri 302 else [].
Proof.
  intros Hs Ht Hmeth loc. unfold RawRedirect. cbn [Ctx.pexec]. unfold Ctx.call at 1 2. cbn [Ctx.do_op]. cbn iota. cbn [log cn_req cn_rw].
  assert (h_get (rw_hdr (cn_rw c)) HeaderContentType = []) as Ht' by exact Ht. rewrite !Ht'. fold loc. change (seqb [] []) with true. cbn [negb andb].
  assert (seqb (rq_method (cn_req c)) (L "GET") || seqb (rq_method (cn_req c)) (L "HEAD") = true) as ->.
  { destruct Hmeth as [->| ->]; done. }
  rewrite !seqp_app.
  set (c0 := log (log c _) _).
  unfold seqp at 1. cbn [fold_right Ctx.pexec]. rewrite call_HeaderSet. cbn iota.
  unfold seqp at 1. cbn [fold_right Ctx.pexec]. rewrite call_HeaderSet. cbn iota.
  match goal with |- context [pexec next (seqp [ORawWriteHeader 302] ?k) x ?c1] =>
    destruct (exec_raw_header next 302 k x c1) as (c2 & K1 & K2 & K3); [exact Hs|done|rewrite K1] end.
  cbn [log set_hdr set_rw cn_rw rw_hdr rw_sent rw_body] in K2.
  change (cn_rw c0) with (cn_rw c) in K2.
  destruct (decide (rq_method (cn_req c) = L "GET")) as [E|E].
  - rewrite E. change (seqb (L "GET") (L "GET")) with true.
    destruct (exec_raw_writes next [page (cn_req c) uri 302] PRet x c2 302 (h_set (h_set (rw_hdr (cn_rw c)) (L "Location") loc) (L "Content-Type") (L "text/html; charset=utf-8")))
      as (c3 & L1 & L2 & L3 & L4); [by rewrite K2|].
    exists c3. cbn [map] in L1. rewrite L1. split_and!; [done|done|]. rewrite L4, K2. change (body_allowed 302) with true. cbn [concat rw_body].
    by rewrite app_nil_r.
  - apply seqb_false in E. rewrite E. exists c2. rewrite K2. cbn [rw_sent rw_body]. by rewrite app_nil_r.
Qed.
End Handler.
