(** Properties of an engine mounted as handler of another. *)
From Verif Require Import Base GoStr Strconv Pattern Tree TreeSpec Header Router RouterSpec Ctx CtxFacts TraceSpec Engine ServeProps EngineSpec
  ServeTop ServeThms StaticSpec RedirectFacts FileFacts Mount MountSpec MountFacts ExampleRegexp ExampleRouter ExampleServe PropStatic PropFile.
Local Open Scope Z_scope.

(** ** An example: the inner engine has the route "/api/<id>", and is mounted at
    "/api/*" *)
Definition em_sniff (d : gostr) : gostr := if seqb (take 6 d) (L "<html>") then L "text/html" else L "text/plain".
Definition em_inner (n : nat) : list (rop nat) := [RNew; RHandle 0 0 (L "/api/<id>") [IFuncCtx n]].
Definition em_outer : list (rop nat) := [RNew; RHandle 0 0 (L "/api/*") [IFuncCtx 0%nat]].
Definition em_code (h : handler nat) : prog gostr :=
  match h with
  | HFuncCtx 1%nat => PDo (OHeaderSet (L "Etag") (L "x")) (fun _ => PDo (OWriteHeader 201) (fun _ => PDo (OWrite (L "made")) (fun _ => PRet)))
  | HFuncCtx 2%nat => PDo (ORawWrite (L "<ht")) (fun _ => PDo (ORawWrite (L "ml>")) (fun _ => PRet))
  | HFuncCtx 3%nat => PTry (PDo (ORawWriteHeader 0) (fun _ => PRet)) (fun _ => PDo (OWriteHeader 500) (fun _ => PRet))
  | HFuncCtx 4%nat => PDo (ORawWriteHeader 203) (fun _ => PDo (ORawWriteHeader 500) (fun _ => PDo (ORawWrite (L "raw")) (fun _ => PPanic (Some (L "late")))))
  | _ => PRet
  end.
(** status, Etag, Content-Type and body as the client gets them *)
Definition em_seen (c : conn gostr) : Z * gostr * gostr * gostr :=
  let '(n, hd, b) := finish em_sniff (cn_rw c) in (n, h_get hd (L "Etag"), h_get hd (L "Content-Type"), b).
(** the inner engine with handler n answers a GET request for path with a, and b is
    the answer when it is mounted in the outer engine *)
Definition em_answers (n : nat) (path : gostr) (en1 : ending) (a : Z * gostr * gostr * gostr) (en2 : ending) (b : Z * gostr * gostr * gostr) : Prop :=
  exists e1 e v, engine_of ex_ok em_outer 0 [] e1 /\ engine_of ex_ok (em_inner n) 0 [] e /\
    sole_route ex_ok ex_find e1 v (get path) /\ rt_handlers v = [HFuncCtx 0%nat] /\ (forall k, ~ refused (get path) k) /\
    (exists px c', ServeHTTP ex_find em_sniff ex_form em_code e 0 newContext (arrive (get path) no_body) = (en1, px, c') /\ em_seen c' = a) /\
    (exists px c1, outer_ServeHTTP ex_find em_sniff ex_form em_code (fun _ => HEngine e 0 newContext) e1 0 newContext (arrive (get path) no_body) = (en2, px, c1) /\
      em_seen c1 = b).
Lemma em_engines n path en1 a en2 b v :
  with_engine ex_ok em_outer [] (fun e1 => with_engine ex_ok (em_inner n) [] (fun e => (routes e1,
    (let '(en, px, c') := ServeHTTP ex_find em_sniff ex_form em_code e 0 newContext (arrive (get path) no_body) in (en, em_seen c')),
    (let '(en, px, c') := outer_ServeHTTP ex_find em_sniff ex_form em_code (fun _ => HEngine e 0 newContext) e1 0 newContext (arrive (get path) no_body) in
     (en, em_seen c'))))) = Some (Some ([v], (en1, a), (en2, b))) ->
  rt_handlers v = [HFuncCtx 0%nat] -> path <> L "*" -> fits ex_ok ex_find v (get path) -> em_answers n path en1 a en2 b.
Proof.
  intros Hw Hh Hp Hf. apply with_engine_split in Hw as (e1 & He1 & Hw). apply with_engine_split in Hw as (e & He & Hw).
  apply pair_equal_spec in Hw as [Hw H2]. apply pair_equal_spec in Hw as [Hr H1].
  exists e1, e, v. split; [exact He1|]. split; [exact He|]. split.
  { split; [rewrite Hr; left|]. split; [done|]. intros u Hu _. rewrite Hr in Hu. by apply elem_of_list_singleton in Hu. }
  split; [done|]. split; [by apply fx_accepted|]. split.
  - destruct (ServeHTTP _ _ _ _ e _ _ _) as [[en px] c']. apply pair_equal_spec in H1 as [-> H1]. by exists px, c'.
  - destruct (outer_ServeHTTP _ _ _ _ _ e1 _ _ _) as [[en px] c']. apply pair_equal_spec in H2 as [-> H2]. by exists px, c'.
Qed.
Ltac em := eapply em_engines; [vm_compute; reflexivity|reflexivity|discriminate|
  split; [reflexivity|]; eexists; split; [apply calc_route_ok; vm_compute; reflexivity|];
  repeat first [apply accepts_last; reflexivity | apply accepts_rest; [reflexivity|discriminate] | apply accepts_next; [reflexivity|]]].

(** ** C101 *)
(** The inner engine called by a handler of the outer one that has not written: it
    ends in the same way, with the same response, as on a connection of its own in
    the same state; the outer Context is written to exactly if the inner engine sent
    a status, which is then its status; nothing else of it changes. *)
Theorem C101_nested_partial :
  forall (A V : Type) re_find sniff parse_form (code : handler A -> prog V) (e : engine A) id x y c c0 en px c',
  alike c c0 -> cn_log c0 = [] -> x_written y = false ->
  ServeHTTP re_find sniff parse_form code e id x c0 = (en, px, c') -> hist in_order (cn_log c') ->
  exists y1 c1, sub_ServeHTTP re_find sniff parse_form code e id x y c = (en, px, (y1, c1)) /\ alike c1 c' /\
    y1 = match sends (cn_log c') with
         | [] => y
         | n :: _ => mkCtx (x_env y) (x_params y) (x_conn y) (x_handlers y) (x_hlen y) (x_index y) true n (x_end y) (x_parsed y)
         end.
Proof.
  intros A V re_find sniff parse_form code e id x y c c0 en px c' Ha Hl Hy H Ho.
  destruct (sub_served re_find sniff parse_form code e id x y c c0 en px c' Ha Hl Hy H Ho) as (y1 & c1 & E & H1 & H2).
  exists y1, c1. split; [exact E|]. split; [exact H1|]. destruct (sends (cn_log c')); [exact H2|exact (proj1 H2)].
Qed.
Print Assumptions C101_nested_partial.
(** handlers before it may have set headers; its own handlers may use ctx.ResponseWriter *)
Definition em_conn (l : list (event gostr)) : conn gostr := set_hdr (mkConn (get (L "/api/7")) rw_new no_body None l) (h_set ∅ (L "Etag") (L "y")).
Example C101_nested_case : alike (em_conn [EvStart 0]) (em_conn []) /\ cn_log (em_conn []) = [] /\ x_written (@newContext nat gostr) = false /\
  exists e en px c', engine_of ex_ok (em_inner 4) 0 [] e /\
    ServeHTTP ex_find em_sniff ex_form em_code e 0 newContext (em_conn []) = (en, px, c') /\ en = EThrow (Some (L "late")) /\
    em_seen c' = (203, L "y", L "text/plain", L "raw") /\ sends (cn_log c') = [203; 500] /\ hist in_order (cn_log c').
Proof.
  split; [done|]. split; [done|]. split; [done|].
  assert (exists l, with_engine ex_ok (em_inner 4) [] (fun e =>
    let '(en, px, c') := ServeHTTP ex_find em_sniff ex_form em_code e 0 newContext (em_conn []) in (en, em_seen c', cn_log c')) = Some
      (EThrow (Some (L "late")), (203, L "y", L "text/plain", L "raw"), l) /\ sends l = [203; 500] /\ hist in_order l) as (l & Hw & Hs & Hh).
  { eexists. split; [vm_compute; reflexivity|]. split; [reflexivity|].
    repeat match goal with |- hist _ (?a :: ?b) => let l := eval cbv in (removelast (a :: b)) in let z := eval cbv in (List.last (a :: b) a) in
      change (a :: b) with (l ++ [z]); apply hist_snoc; split; [|cbn; done] end. apply hist_nil. }
  apply with_engine_split in Hw as (e & He & Hw). exists e.
  destruct (ServeHTTP _ _ _ _ e _ _ _) as [[en px] c']. exists en, px, c'.
  apply pair_equal_spec in Hw as [Hw <-]. apply pair_equal_spec in Hw as [-> Hw]. by split_and!.
Qed.

(** An engine that is the only handler of a route: the reply to a request for that
    route is the reply of that engine. *)
Theorem C101_partial :
  forall (A V : Type) re_ok re_find sniff parse_form (code : handler A -> prog V) (outer : handler A -> hcode A V)
    ops1 r1 opts1 (e1 : engine A) id1 y r body en1 px1 c1 v h e id x en px c',
  engine_of re_ok ops1 r1 opts1 e1 ->
  outer_ServeHTTP re_find sniff parse_form code outer e1 id1 y (arrive r body) = (en1, px1, c1) ->
  (forall n, ~ refused r n) -> sole_route re_ok re_find e1 v r -> rt_handlers v = [h] -> outer h = HEngine e id x ->
  ServeHTTP re_find sniff parse_form code e id x (arrive r body) = (en, px, c') -> hist in_order (cn_log c') ->
  en1 = en /\ cn_rw c1 = cn_rw c'.
Proof.
  intros A V re_ok re_find sniff parse_form code outer ops1 r1 opts1 e1 id1 y r body en1 px1 c1 v h e id x en px c' He H Hr Hs Hh Ho Hi Hord.
  destruct (mounted re_ok re_find sniff parse_form code outer _ _ _ _ _ _ _ _ _ _ _ h e id x en px c' He H Hr) as (-> & _ & Hw & _); try done.
  - destruct Hs as (Hv & Hf & _). by exists v.
  - intros hs Hd. rewrite <- Hh. by eapply sole_dispatched.
Qed.
Print Assumptions C101_partial.
(** This holds of all engines whose handlers write through their Context. *)
Theorem C101_context :
  forall (A V : Type) re_ok re_find sniff parse_form (code : handler A -> prog V) (outer : handler A -> hcode A V)
    ops1 r1 opts1 (e1 : engine A) id1 y r body en1 px1 c1 v h ops r0 opts e id x en px c',
  engine_of re_ok ops1 r1 opts1 e1 ->
  outer_ServeHTTP re_find sniff parse_form code outer e1 id1 y (arrive r body) = (en1, px1, c1) ->
  (forall n, ~ refused r n) -> sole_route re_ok re_find e1 v r -> rt_handlers v = [h] -> outer h = HEngine e id x ->
  engine_of re_ok ops r0 opts e -> uses_ctx code e ->
  ServeHTTP re_find sniff parse_form code e id x (arrive r body) = (en, px, c') ->
  en1 = en /\ cn_rw c1 = cn_rw c'.
Proof.
  intros A V re_ok re_find sniff parse_form code outer ops1 r1 opts1 e1 id1 y r body en1 px1 c1 v h ops r0 opts e id x en px c' He H Hr Hs Hh Ho He2 Hu Hi.
  refine (C101_partial _ _ _ _ _ _ _ _ _ _ _ _ _ _ _ _ _ _ _ _ _ _ _ _ _ _ _ He H Hr Hs Hh Ho Hi _).
  exact (ctx_ordered re_ok re_find sniff parse_form code _ _ _ _ _ _ _ _ _ _ _ He2 Hi Hu).
Qed.
Print Assumptions C101_context.
Example C101_case :
  em_answers 1 (L "/api/7") EDone (201, L "x", L "text/plain", L "made") EDone (201, L "x", L "text/plain", L "made") /\
  em_answers 1 (L "/api/7/8") EDone (404, [], [], []) EDone (404, [], [], []) /\
  em_answers 4 (L "/api/7") (EThrow (Some (L "late"))) (203, [], L "text/plain", L "raw") (EThrow (Some (L "late"))) (203, [], L "text/plain", L "raw") /\
  (forall e : engine nat, engine_of ex_ok (em_inner 1) 0 [] e -> uses_ctx em_code e).
Proof.
  split; [em|]. split; [em|]. split; [em|]. intros e He.
  assert (chains e = ([(L "GET", [HFuncCtx 1%nat])], [])) as Hc.
  { eapply (with_engine_fun ex_ok (em_inner 1) [] chains); [vm_compute; reflexivity|exact He]. }
  apply pair_equal_spec in Hc as [H1 H2]. split; [|by rewrite H2; intros h Hh%elem_of_nil].
  intros v h Hv Hh. assert ((rt_method v, rt_handlers v) ∈ [(L "GET", [@HFuncCtx nat 1%nat])]) as Hin.
  { rewrite <- H1. apply elem_of_list_fmap. by exists v. }
  apply elem_of_list_singleton in Hin. apply pair_equal_spec in Hin as [_ Hin]. rewrite Hin in Hh. apply elem_of_list_singleton in Hh as ->.
  cbn. repeat (split; [by intros []|intros _]). done.
Qed.

(** Not so for handlers that write to ctx.ResponseWriter: data without a status (the
    outer Context guesses the type from the first piece), and a status after one that
    net/http refused. *)
Theorem C101_refuted :
  em_answers 2 (L "/api/7") EDone (200, [], L "text/html", L "<html>") EDone (200, [], L "text/plain", L "<html>") /\
  em_answers 3 (L "/api/7") EDone (500, [], [], []) EDone (200, [], [], []).
Proof. split; em. Qed.
Print Assumptions C101_refuted.

(** Without mounted engines, the model of the outer engine is the one of Engine.v. *)
Theorem C101_plain :
  forall (A V : Type) re_find sniff parse_form (code pc : handler A -> prog V) (outer : handler A -> hcode A V) (e : engine A) id y c,
  (forall h, outer h = HCode (pc h)) ->
  outer_ServeHTTP re_find sniff parse_form code outer e id y c = ServeHTTP re_find sniff parse_form pc e id y c.
Proof. intros. by apply outer_plain. Qed.
Print Assumptions C101_plain.
