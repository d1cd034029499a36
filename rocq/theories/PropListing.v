(** Properties of the listings of routes. *)
From Coq Require Import Sorted.
From Verif Require Import Base GoStr Strconv Pattern Tree TreeSpec Router RouterSpec RouterFacts
  MethodFacts HandlerFacts RouterProps ExampleRegexp Listing ListingSpec ListingFacts ListingTop.

(** what a listing gives for a registration, Handler() and further calls *)
Definition lx_of {B} (ops later : list (rop nat)) (f : heap nat -> engine nat -> B) : option B :=
  match run_ops ops [] with
  | Ok hp => match Handler ex_ok hp 0 [] 0%Z with
             | (Ok e, _) => match run_ops later hp with Ok hp' => Some (f hp' e) | _ => None end
             | _ => None
             end
  | _ => None
  end.
Lemma lx_split {B} ops later (f : heap nat -> engine nat -> B) b : lx_of ops later f = Some b ->
  exists hp e mem' hp', run_ops ops [] = Ok hp /\ Handler ex_ok hp 0 [] 0%Z = (Ok e, mem') /\
    run_ops later hp = Ok hp' /\ f hp' e = b.
Proof.
  unfold lx_of. destruct (run_ops ops []) as [hp| |]; try discriminate.
  destruct (Handler ex_ok hp 0 [] 0%Z) as [[e| |] m'] eqn:He; try discriminate.
  destruct (run_ops later hp) as [hp'| |] eqn:Hl; try discriminate. intros [= <-]. do 4 eexists. eauto.
Qed.

(** middleware on the root, a group with two routes, a route with two handlers *)
Definition lx_ops : list (rop nat) :=
  [RNew; RUse 0 [IFuncCtx 10];
   RGroup 0 (L "/g") [GSub [RHandle 1 0 (L "/in") [IFuncCtx 1]; RHandle 1 1 (L "/in") [IFuncCtx 2]]];
   RHandle 0 0 (L "/:a/b") [IFuncCtx 3; IFuncCtx 4]].

(** ** C44 *)
(** PrintRawAllRoutes: one line for each route, in dispatch order. *)
Theorem C44_all_routes :
  forall (A : Type) re_ok (ops : list (rop A)) hp r opts mem e mem',
  run_ops ops [] = Ok hp -> Handler re_ok hp r opts mem = (Ok e, mem') ->
  exists ls, leaves (history ops) r ls /\
    ((ls = [] /\ PrintRawAllRoutes e = lines [L "no route"]) \/
     (ls <> [] /\ exists ts, Forall2 (all_line (history ops)) ls ts /\ PrintRawAllRoutes e = lines ts)).
Proof. exact @all_routes. Qed.
Print Assumptions C44_all_routes.
(** PrintRawRoutes: one line for each route of the method, by URI. *)
Theorem C44_by_method :
  forall (A : Type) re_ok (ops : list (rop A)) hp r opts mem e mem' m0 m,
  run_ops ops [] = Ok hp -> Handler re_ok hp r opts mem = (Ok e, mem') -> m = to_upper m0 ->
  (m ∉ method_names /\ is_panic (PrintRawRoutes e m0)) \/
  (m ∈ method_names /\ exists ls text, PrintRawRoutes e m0 = Ok text /\
    (forall l, l ∈ ls <-> routes_under (history ops) r m l) /\
    StronglySorted (fun a b => exists u v, has_uri (history ops) a u /\ has_uri (history ops) b v /\ bytes_lt u v) ls /\
    ((ls = [] /\ text = lines [L "no route"]) \/
     (ls <> [] /\ exists ts, Forall2 (method_line (history ops)) ls ts /\ text = lines ts))).
Proof. exact @by_method. Qed.
Print Assumptions C44_by_method.
(** PrintRawRouter counts too few handlers if there are Before handlers. *)
Theorem C44_raw_router_refuted :
  exists (ops : list (rop nat)) hp e mem,
    run_ops ops [] = Ok hp /\ Handler ex_ok hp 0 [] 0%Z = (Ok e, mem) /\
    PrintRawRouter hp e = Ok (lines [L "└── /a [GET     : 1]"]) /\
    PrintRawAllRoutes e = lines [L "[GET     : 2] /a"] /\
    routes_under (history ops) 0 (L "GET") 1 /\ runs (history ops) 1 2.
Proof.
  set (ops := [RNew; RBefore 0 [IFuncCtx 7]; RHandle 0 0 (L "/a") [IFuncCtx 1]] : list (rop nat)).
  edestruct (lx_split ops [] (fun hp e => (PrintRawRouter hp e, PrintRawAllRoutes e))) as (hp & e & mem & hp' & H1 & H2 & H3 & H4);
    [vm_compute; reflexivity|].
  injection H3 as <-. apply pair_equal_spec in H4 as [H4 H5].
  assert (Hlin : lineage (history ops) 1 [0; 1]).
  { apply (lineage_child _ 1 (ERoute 0 (L "GET") (L "/a") [IFuncCtx 1]) 0 [0]); [reflexivity|reflexivity|].
    by apply lineage_root. }
  exists ops, hp, e, mem. split_and!; [exact H1|exact H2|exact H4|exact H5|..].
  - split; [do 3 eexists; reflexivity|by exists [1]].
  - exists [0; 1]. split; [exact Hlin|]. reflexivity.
Qed.
Print Assumptions C44_raw_router_refuted.
(** It also lists routes registered after Handler(), for which nothing runs. *)
Theorem C44_raw_router_late_refuted :
  exists (ops later : list (rop nat)) hp e mem hp',
    run_ops ops [] = Ok hp /\ Handler ex_ok hp 0 [] 0%Z = (Ok e, mem) /\ run_ops later hp = Ok hp' /\
    PrintRawRouter hp' e = Ok (lines [L "├── /a [GET     : 1]"; L "└── /late [GET     : 1]"]) /\
    map rt_uri (rs_slice (en_store e)) = [L "/a"].
Proof.
  set (ops := [RNew; RHandle 0 0 (L "/a") [IFuncCtx 1]] : list (rop nat)).
  set (later := [RHandle 0 0 (L "/late") [IFuncCtx 2]] : list (rop nat)).
  edestruct (lx_split ops later (fun hp e => (PrintRawRouter hp e, map rt_uri (rs_slice (en_store e)))))
    as (hp & e & mem & hp' & H1 & H2 & H3 & H4); [vm_compute; reflexivity|].
  apply pair_equal_spec in H4 as [H4 H5]. exists ops, later, hp, e, mem, hp'. split_and!; [exact H1|exact H2|exact H3|exact H4|exact H5].
Qed.
Print Assumptions C44_raw_router_late_refuted.
(** What holds: it draws everything below the root as it is at that time, each
    route with the number of its handlers other than Before handlers. *)
Theorem C44_raw_router_partial :
  forall (A : Type) re_ok (ops later : list (rop A)) hp r opts mem e mem' hp',
  run_ops ops [] = Ok hp -> Handler re_ok hp r opts mem = (Ok e, mem') -> run_ops later hp = Ok hp' ->
  exists ns its, outline (history (ops ++ later)) r ns /\
    Forall2 (outline_item (history (ops ++ later)) r (runs_after (history (ops ++ later)))) ns its /\
    PrintRawRouter hp' e = Ok (drawing its).
Proof. exact @raw_router. Qed.
Print Assumptions C44_raw_router_partial.
(** Without Before handlers the numbers are right. *)
Theorem C44_raw_router_no_before_partial :
  forall (A : Type) re_ok (ops later : list (rop A)) hp r opts mem e mem' hp',
  run_ops ops [] = Ok hp -> Handler re_ok hp r opts mem = (Ok e, mem') -> run_ops later hp = Ok hp' ->
  befores (history (ops ++ later)) r = [] ->
  exists ns its, outline (history (ops ++ later)) r ns /\
    Forall2 (outline_item (history (ops ++ later)) r (runs (history (ops ++ later)))) ns its /\
    PrintRawRouter hp' e = Ok (drawing its).
Proof. exact @raw_router_exact. Qed.
Print Assumptions C44_raw_router_no_before_partial.
Example C44_case :
  exists hp e mem, run_ops lx_ops [] = Ok hp /\ Handler ex_ok hp 0 [] 0%Z = (Ok e, mem) /\
    befores (history lx_ops) 0 = [] /\
    PrintRawAllRoutes e = lines [L "[GET     : 2] /g/in"; L "[POST    : 2] /g/in"; L "[GET     : 3] /:a/b"] /\
    PrintRawRoutes e (L "get") = Ok (lines [L "[  3] /:a/b"; L "[  2] /g/in"]) /\
    PrintRawRoutes e (L "PUT") = Ok (lines [L "no route"]) /\
    PrintRawRouter hp e = Ok (lines [L "├── /g"; L "│   ├── /in [GET     : 2]"; L "│   └── /in [POST    : 2]";
                                     L "└── /:a/b [GET     : 3]"]) /\
    PrintRouterTree e (L "GET") = Ok (lines [L "├── g"; L "│   └── in [  2]"; L "└── <a>"; L "    └── b [  3]"]).
Proof.
  edestruct (lx_split lx_ops [] (fun hp e => (PrintRawAllRoutes e, PrintRawRoutes e (L "get"), PrintRawRoutes e (L "PUT"),
      PrintRawRouter hp e, PrintRouterTree e (L "GET")))) as (hp & e & mem & hp' & H1 & H2 & H3 & H4);
    [vm_compute; reflexivity|].
  injection H3 as <-. apply pair_equal_spec in H4 as [H4 H5]. apply pair_equal_spec in H4 as [H4 H6].
  apply pair_equal_spec in H4 as [H4 H7]. apply pair_equal_spec in H4 as [H4 H8].
  exists hp, e, mem. split_and!; [exact H1|exact H2|reflexivity|exact H4|exact H8|exact H7|exact H6|exact H5].
Qed.

(** ** C69 *)
(** PrintRouterTree shows each different route of the method once, with the number
    of handlers of the first one registered, and nothing else. *)
Theorem C69_router_tree :
  forall (A : Type) re_ok (ops : list (rop A)) hp r opts mem e mem' m0 m,
  run_ops ops [] = Ok hp -> Handler re_ok hp r opts mem = (Ok e, mem') -> m = to_upper m0 ->
  (m ∉ method_names /\ is_panic (PrintRouterTree e m0)) \/
  (m ∈ method_names /\ exists text, PrintRouterTree e m0 = Ok text /\
    (((forall x, ~ routes_under (history ops) r m x) /\ text = lines [L "no route"]) \/
     ((exists x, routes_under (history ops) r m x) /\ exists top items texts lns,
       text = lines (top ++ lns) /\ Forall2 item_text items texts /\ Forall2 sketch texts lns /\
       ((exists n nt, first_route (history ops) r m [[]] n /\ filled_left 3 (number n) nt /\
           top = [L "/ [" ++ nt ++ L "]"]) \/
        ((forall n, ~ first_route (history ops) r m [[]] n) /\ top = [])) /\
       NoDup (reading [] items) /\
       (forall segs n, (segs, Some n) ∈ reading [] items <-> segs <> [[]] /\ first_route (history ops) r m segs n) /\
       (forall segs, (segs, None) ∈ reading [] items <->
          segs <> [] /\ exists x s rest, routes_under (history ops) r m x /\ has_segs (history ops) x (segs ++ s :: rest)) /\
       (top = [] -> text = drawing texts)))).
Proof. exact @router_tree. Qed.
Print Assumptions C69_router_tree.
(** [C44_case] has such a tree; with "/" as well: *)
Definition lx_slash : list (rop nat) := lx_ops ++ [RHandle 0 0 (L "/") [IFuncCtx 5]].
Example C69_case :
  exists hp e mem, run_ops lx_slash [] = Ok hp /\ Handler ex_ok hp 0 [] 0%Z = (Ok e, mem) /\
    PrintRouterTree e (L "GET") =
      Ok (lines [L "/ [  2]"; L "├── g"; L "│   └── in [  2]"; L "├── <a>"; L "│   └── b [  3]"]) /\
    is_panic (PrintRouterTree e (L "FETCH")).
Proof.
  edestruct (lx_split lx_slash [] (fun hp e => (PrintRouterTree e (L "GET"), PrintRouterTree e (L "FETCH"))))
    as (hp & e & mem & hp' & H1 & H2 & _ & H4); [vm_compute; reflexivity|].
  apply pair_equal_spec in H4 as [H4 H5]. exists hp, e, mem. split_and!; [exact H1|exact H2|exact H4|]. rewrite H5. by eexists.
Qed.

(** ** C70 *)
(** If "/" is registered, the last branch of the tree is drawn as if another one
    followed. *)
Theorem C70_router_tree_refuted :
  exists (ops : list (rop nat)) hp e mem texts lns,
    run_ops ops [] = Ok hp /\ Handler ex_ok hp 0 [] 0%Z = (Ok e, mem) /\
    PrintRouterTree e (L "GET") = Ok (lines (L "/ [  1]" :: lns)) /\
    Forall2 sketch texts lns /\ lines lns <> drawing texts /\
    drawing texts = lines [L "└── a"; L "    └── b [  1]"].
Proof.
  set (ops := [RNew; RHandle 0 0 (L "/") [IFuncCtx 1]; RHandle 0 0 (L "/a/b") [IFuncCtx 2]] : list (rop nat)).
  edestruct (lx_split ops [] (fun hp e => PrintRouterTree e (L "GET"))) as (hp & e & mem & hp' & H1 & H2 & _ & H4);
    [vm_compute; reflexivity|].
  exists ops, hp, e, mem, [(0, L "a"); (1, L "b [  1]")], [L "├── a"; L "│   └── b [  1]"].
  split_and!; [exact H1|exact H2|exact H4|..].
  - constructor; [|constructor; [|constructor]].
    + exists [], (L "├──"). split_and!; [done|constructor|by left|reflexivity].
    + exists [L "│   "], (L "└──"). split_and!; [done|repeat constructor|by right|reflexivity].
  - vm_compute. discriminate.
  - reflexivity.
Qed.
Print Assumptions C70_router_tree_refuted.
(** Otherwise corners stand exactly at the last siblings and bars exactly where
    more siblings follow. *)
Theorem C70_router_tree_partial :
  forall (A : Type) re_ok (ops : list (rop A)) hp r opts mem e mem' m0 text,
  run_ops ops [] = Ok hp -> Handler re_ok hp r opts mem = (Ok e, mem') ->
  PrintRouterTree e m0 = Ok text -> text <> lines [L "no route"] ->
  (forall n, ~ first_route (history ops) r (to_upper m0) [[]] n) ->
  exists items texts, text = drawing texts /\ Forall2 item_text items texts /\ NoDup (reading [] items) /\
    forall segs n, (segs, Some n) ∈ reading [] items <-> first_route (history ops) r (to_upper m0) segs n.
Proof. exact @router_tree_drawn. Qed.
Print Assumptions C70_router_tree_partial.
(** PrintRawRouter always draws them like that. *)
Theorem C70_raw_router :
  forall (A : Type) re_ok (ops later : list (rop A)) hp r opts mem e mem' hp',
  run_ops ops [] = Ok hp -> Handler re_ok hp r opts mem = (Ok e, mem') -> run_ops later hp = Ok hp' ->
  exists ns its, outline (history (ops ++ later)) r ns /\
    Forall2 (outline_item (history (ops ++ later)) r (runs_after (history (ops ++ later)))) ns its /\
    PrintRawRouter hp' e = Ok (drawing its).
Proof. exact @raw_router. Qed.
Print Assumptions C70_raw_router.
(** [C44_case] is a case of both. *)
