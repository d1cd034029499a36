(** Property theorems: pages come from the Render that was set last (C108). *)
From Verif Require Import Base GoStr Strconv Util Pattern Tree TreeSpec Header Router RouterSpec Ctx CtxFacts TraceSpec
  Engine EngineSpec ServeTop ServeThms Content ContentFacts StaticSpec HelperSpec HelperFacts HelperLog Render RenderSpec RenderFacts
  ExampleRegexp ExampleRouter ExampleServe PropMiddleware.
Local Open Scope Z_scope.

(** ** C108 *)
(** Every request of the process is served with the Render that was set last before
    it, whatever engines served requests before; with the default if none was. *)
Theorem C108_installed :
  forall (A V D : Type) re_find sniff parse_form (code : renderer (V:=V) (D:=D) -> handler A -> prog V) a e id x c b R,
  installed defaultRender a R ->
  run_process re_find sniff parse_form code (a ++ AServe e id x c :: b) !! requests a =
  Some (ServeHTTP re_find sniff parse_form (code R) e id x c).
Proof. intros *. apply served_installed. Qed.
Print Assumptions C108_installed.

(** A handler anywhere in the chain that calls HTML or HTMLSet does what this Render
    does with its status, set, template and data, the set being "" for HTML; then, if
    the Render does not panic, it goes on. *)
Theorem C108_rendered :
  forall (A V D : Type) re_ok re_find sniff parse_form (code : renderer (V:=V) (D:=D) -> handler A -> prog V)
    ops r0 opts e id x r body en px c' a b R n set tpl d k i l1 l2,
  engine_of re_ok ops r0 opts e -> installed defaultRender a R ->
  run_process re_find sniff parse_form code (a ++ AServe e id x (arrive r body) :: b) !! requests a = Some (en, px, c') ->
  (forall hs, dispatched re_ok re_find e r hs -> exists g, hs !! i = Some g /\
     ((forall R, code R g = HTML R n tpl d (k R)) /\ set = [] \/ (forall R, code R g = HTMLSet R n set tpl d (k R)))) ->
  cn_log c' = l1 ++ EvStart i :: l2 ->
  exists hs m l3, l2 = m ++ l3 /\
    (did (code R) hs (R n set tpl d) m EDone /\ (exists l4 l5 en', l3 = l4 ++ l5 /\ did (code R) hs (k R) l4 en') \/
     exists v, did (code R) hs (R n set tpl d) m (EThrow v)).
Proof.
  intros A V D re_ok re_find sniff parse_form code ops r0 opts e id x r body en px c' a b R n set tpl d k i l1 l2 He Hi Hs Hd Hl.
  rewrite (served_installed _ _ _ _ _ _ _ _ _ _ _ Hi) in Hs. apply Some_inj in Hs.
  apply (rendered_behind re_ok re_find sniff parse_form (code R) ops r0 opts e id x r body en px c' (R n set tpl d) (k R) i l1 l2 He Hs); [|done].
  intros hs Hh. destruct (Hd hs Hh) as (g & Hg & [[Hc ->]|Hc]); exists g; split; [done|by rewrite Hc|done|by rewrite Hc].
Qed.
Print Assumptions C108_rendered.

(** With a Render that sends a page under the status it is given, this page is the
    response, with the headers set before. *)
Theorem C108_page :
  forall (A V D : Type) re_ok re_find sniff parse_form (code : renderer (V:=V) (D:=D) -> handler A -> prog V)
    ops r0 opts e id x r body en px c' a b R t text n set tpl d k i l1 l2,
  engine_of re_ok ops r0 opts e -> installed defaultRender a R -> sends_page R t text -> uses_ctx (code R) e ->
  run_process re_find sniff parse_form code (a ++ AServe e id x (arrive r body) :: b) !! requests a = Some (en, px, c') ->
  (forall hs, dispatched re_ok re_find e r hs -> exists g, hs !! i = Some g /\
     ((forall R, code R g = HTML R n tpl d (k R)) /\ set = [] \/ (forall R, code R g = HTMLSet R n set tpl d (k R)))) ->
  cn_log c' = l1 ++ EvStart i :: l2 -> ~ responded l1 -> 100 <= n <= 999 ->
  exists m l3 hd, l2 = m ++ l3 /\ starts m = [] /\ rw_sent (cn_rw c') = Some (n, hd) /\ typed_over t (headers_of l1) hd /\
    (bodiless n -> rw_body (cn_rw c') = []) /\ (~ bodiless n -> rw_body (cn_rw c') = text set tpl d ++ data_of l3).
Proof.
  intros A V D re_ok re_find sniff parse_form code ops r0 opts e id x r body en px c' a b R t text n set tpl d k i l1 l2 He Hi Hp Hu Hs Hd Hl Hn Hv.
  rewrite (served_installed _ _ _ _ _ _ _ _ _ _ _ Hi) in Hs. apply Some_inj in Hs.
  apply (page_behind re_ok re_find sniff parse_form (code R) ops r0 opts e id x r body en px c' n t (text set tpl d) (k R) i l1 l2 He Hs Hu); [|done..].
  intros hs Hh. destruct (Hd hs Hh) as (g & Hg & [[Hc ->]|Hc]); exists g; (split; [done|]); rewrite Hc; unfold HTML, HTMLSet, renderHTML; rewrite Hp; done.
Qed.
Print Assumptions C108_page.

(** The default Render sends the status without a page. *)
Theorem C108_default :
  forall (A V D : Type) re_ok re_find sniff parse_form (code : renderer (V:=V) (D:=D) -> handler A -> prog V)
    ops r0 opts e id x r body en px c' a b n set tpl d k i l1 l2,
  engine_of re_ok ops r0 opts e -> sets_none a -> uses_ctx (code defaultRender) e ->
  run_process re_find sniff parse_form code (a ++ AServe e id x (arrive r body) :: b) !! requests a = Some (en, px, c') ->
  (forall hs, dispatched re_ok re_find e r hs -> exists g, hs !! i = Some g /\
     ((forall R, code R g = HTML R n tpl d (k R)) /\ set = [] \/ (forall R, code R g = HTMLSet R n set tpl d (k R)))) ->
  cn_log c' = l1 ++ EvStart i :: l2 -> ~ responded l1 -> 100 <= n <= 999 ->
  exists m l3, l2 = m ++ l3 /\ starts m = [] /\ rw_sent (cn_rw c') = Some (n, headers_of l1) /\
    (bodiless n -> rw_body (cn_rw c') = []) /\ (~ bodiless n -> rw_body (cn_rw c') = data_of l3).
Proof.
  intros A V D re_ok re_find sniff parse_form code ops r0 opts e id x r body en px c' a b n set tpl d k i l1 l2 He Hi Hu Hs Hd Hl Hn Hv.
  rewrite (served_installed _ _ _ _ _ _ _ _ _ _ _ (installed_default _ _ Hi)) in Hs. apply Some_inj in Hs.
  apply (answer_behind re_ok re_find sniff parse_form (code defaultRender) ops r0 opts e id x r body en px c' n [] (k defaultRender) i l1 l2 He Hs Hu); [|done..].
  intros hs Hh. destruct (Hd hs Hh) as (g & Hg & [[Hc _]|Hc]); exists g; (split; [done|]); rewrite Hc; exact (then_HTMLSet n (k defaultRender)).
Qed.
Print Assumptions C108_default.

(** two requests, one before and one after the Render is set; the handler sets a
    header, HTML renders "home" *)
Definition eu_page (by_ : gostr) : renderer (V:=gostr) (D:=gostr) := fun n set tpl d =>
  seqp [OHeaderSet (L "Content-Type") (L "text/html"); OWriteHeader n; OWrite (by_ ++ set ++ L ":" ++ tpl ++ L "=" ++ d)] PRet.
Definition eu_code (R : renderer (V:=gostr) (D:=gostr)) (h : handler nat) : prog gostr :=
  match h with
  | HFuncCtx 0%nat => seqp [OHeaderSet (L "X-Id") (L "7"); OHeaderSet (L "Content-Type") (L "old")] PRet
  | _ => HTML R 201 (L "home") (L "data") (PDo (OWrite (L "!")) (fun _ => PRet))
  end.
Notation eu_serve e := (AServe (D:=gostr) e 0 mx_new (arrive (mx_req (L "GET") []) no_body)).
Notation eu_run e := (run_process ex_find ex_sniff ex_form eu_code [eu_serve e; ASetRender (eu_page (L "one ")); ASetRender (eu_page (L "two ")); eu_serve e]).
Definition eu_log : list (event gostr) := Eval vm_compute in
  EvStart 0 :: map (fun x => EvCall (OHeaderSet x.1 x.2) (Norm tt)) [(L "X-Id", L "7"); (L "Content-Type", L "old")] ++ [EvEnd 0].
Example C108_page_case :
  sends_page (eu_page (L "two ")) (L "text/html") (fun set tpl d => L "two " ++ set ++ L ":" ++ tpl ++ L "=" ++ d) /\
  exists e, engine_of ex_ok (mx_ops [0%nat; 1%nat]) 0 [] e /\ uses_ctx (eu_code defaultRender) e /\ uses_ctx (eu_code (eu_page (L "two "))) e /\
  installed defaultRender [eu_serve e; ASetRender (eu_page (L "one ")); ASetRender (eu_page (L "two "))] (eu_page (L "two ")) /\
  (forall hs, dispatched ex_ok ex_find e (mx_req (L "GET") []) hs -> hs !! 1%nat = Some (HFuncCtx 1%nat)) /\
  (exists en px c' l2, eu_run e !! 0%nat = Some (en, px, c') /\ cn_log c' = eu_log ++ EvStart 1 :: l2 /\ ~ responded eu_log /\
     option_map fst (rw_sent (cn_rw c')) = Some 201 /\ rw_body (cn_rw c') = L "!") /\
  (exists en px c' l2, eu_run e !! 1%nat = Some (en, px, c') /\ cn_log c' = eu_log ++ EvStart 1 :: l2 /\
     option_map fst (rw_sent (cn_rw c')) = Some 201 /\ rw_body (cn_rw c') = L "two :home=data!").
Proof.
  split; [done|]. edestruct (with_engine_split ex_ok (mx_ops [0%nat; 1%nat]) [] (fun e => (chains e,
    match eu_run e with
    | [(_, _, c1); (_, _, c2)] => Some ((take 5 (cn_log c1), option_map fst (rw_sent (cn_rw c1)), rw_body (cn_rw c1)),
        (take 5 (cn_log c2), option_map fst (rw_sent (cn_rw c2)), rw_body (cn_rw c2)))
    | _ => None
    end))) as (e & He & Hs); [vm_compute; reflexivity|].
  exists e. split; [exact He|]. apply pair_equal_spec in Hs as [Hc Hs].
  assert (Hh : forall v, v ∈ routes e -> rt_handlers v = [HFuncCtx 0%nat; HFuncCtx 1%nat]).
  { intros v Hv. pose proof (f_equal fst Hc) as Hc1. cbn [fst] in Hc1.
    assert (Hin : (rt_method v, rt_handlers v) ∈ fst (chains e)) by (apply elem_of_list_fmap; by exists v).
    rewrite Hc in Hin. cbn [fst] in Hin. rewrite !elem_of_cons, elem_of_nil in Hin. destruct Hin as [E|[E|[]]]; by injection E. }
  assert (Hn : o_nofound (en_options e) = []) by exact (f_equal snd Hc).
  assert (Hu : forall R, only (fun o => ~ raw o) (eu_code R (HFuncCtx 1%nat)) -> uses_ctx (eu_code R) e).
  { intros R Hr. split; [|intros h Hin; rewrite Hn in Hin; by apply elem_of_nil in Hin].
    intros v h Hv Hin. rewrite (Hh v Hv), !elem_of_cons, elem_of_nil in Hin. destruct Hin as [->|[->|[]]]; [|exact Hr].
    cbn. repeat first [by intros []|intros ?|split|exact I]. }
  split; [apply Hu; cbn; repeat first [by intros []|intros ?|split|exact I]|].
  split; [apply Hu; cbn; repeat first [by intros []|intros ?|split|exact I]|].
  split. { apply (installed_set _ [_; _] (eu_page (L "two ")) []). intros r Hr. by apply elem_of_nil in Hr. }
  split.
  { intros hs Hd. apply (dispatched_chains _ _ _ _ _ _ Hc) in Hd. rewrite !elem_of_cons, elem_of_nil in Hd.
    destruct Hd as [E|[E|[]]]; injection E as -> ; done. }
  destruct (eu_run e) as [|[[en1 px1] c1] [|[[en2 px2] c2] [|]]]; try discriminate Hs.
  apply Some_inj in Hs. apply pair_equal_spec in Hs as [Hs1 Hs2].
  apply pair_equal_spec in Hs1 as [Hs1 B1]. apply pair_equal_spec in Hs1 as [L1 S1].
  apply pair_equal_spec in Hs2 as [Hs2 B2]. apply pair_equal_spec in Hs2 as [L2 S2].
  split.
  - exists en1, px1, c1, (drop 5 (cn_log c1)). split; [done|]. split; [rewrite <- (take_drop 5 (cn_log c1)) at 1; rewrite L1; done|]. split; [|done].
    intros Hr. by apply Hr.
  - exists en2, px2, c2, (drop 5 (cn_log c2)). split; [done|]. split; [rewrite <- (take_drop 5 (cn_log c2)) at 1; rewrite L2; done|]. done.
Qed.
