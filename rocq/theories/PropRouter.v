(** Properties of registration and of Handler(). *)
From Verif Require Import Base GoStr Strconv Pattern Tree TreeSpec Router RouterSpec RouterFacts
  MethodFacts HandlerFacts PathClean StaticReg RouterProps Variant ExampleRegexp ExampleRouter.

(** a root with a Before and a Use handler, a group with its own Use (called
    after the route was added) and a route in it; then a route outside *)
Definition ex_ops : list (rop nat) :=
  [RNew; RUse 0 [IFuncCtx 10]; RBefore 0 [IHandler 20];
   RGroup 0 (L "/g") [GSub [RHandle 1 0 (L "/in") [IHttpHandler 1]; RUse 1 [IFuncCtx 11]]];
   RHandle 0 1 (L "/out") [IHttpFunc 2; IFuncCtx 3]].

(** ** C09 *)
(** The routes are those below the root, in the order of the lineages; the
    handlers of each are the converted [chain] of RouterSpec. *)
Theorem C09_middleware_order :
  forall (A : Type) re_ok (ops : list (rop A)) hp r opts mem e mem',
  run_ops ops [] = Ok hp -> Handler re_ok hp r opts mem = (Ok e, mem') ->
  exists ls, leaves (history ops) r ls /\ Forall2 (route_of (history ops)) ls (rs_slice (en_store e)).
Proof. exact @middleware_order. Qed.
Print Assumptions C09_middleware_order.
(** Calling Use before or after adding a route gives the same routers. *)
Theorem C09_use_order_irrelevant :
  forall (A : Type) (ops1 ops2 : list (rop A)) g hs r m pat hs' hp,
  run_ops (ops1 ++ RUse g hs :: RHandle r m pat hs' :: ops2) [] = Ok hp <->
  run_ops (ops1 ++ RHandle r m pat hs' :: RUse g hs :: ops2) [] = Ok hp.
Proof. exact @use_order. Qed.
Print Assumptions C09_use_order_irrelevant.
Example C09_case :
  exists hp e m, run_ops ex_ops [] = Ok hp /\ Handler ex_ok hp 0 [] 0%Z = (Ok e, m) /\
    map (fun rt => (rt_uri rt, rt_handlers rt)) (rs_slice (en_store e)) =
      [(L "/g/in", [HHandler 20; HFuncCtx 10; HFuncCtx 11; HHttp 1]);
       (L "/out", [HHandler 20; HFuncCtx 10; HHttpFunc 2; HFuncCtx 3])].
Proof.
  edestruct (build_split ex_ok ex_ops 0 [] 0%Z) as (hp & e & Hhp & He & Hs); [vm_compute; reflexivity|].
  exists hp, e. eexists. split; [exact Hhp|]. split; [exact He|]. rewrite Hs. reflexivity.
Qed.

(** ** C10 *)
(** False for middleware passed to Group itself: it also runs for routes outside
    the group. *)
Theorem C10_group_middleware_refuted :
  exists (ops : list (rop nat)) hp e mem g mw l path rt,
    run_ops ops [] = Ok hp /\ Handler ex_ok hp 0 [] 0%Z = (Ok e, mem) /\
    In (RGroup 0 (L "/g") [GMw mw; GSub [RHandle g 0 (L "/in") [IFuncCtx 1]]]) ops /\
    creations (history ops) !! g = Some (EGroup 0 (L "/g")) /\
    lineage (history ops) l path /\ g ∉ path /\ route_of (history ops) l rt /\
    rt ∈ rs_slice (en_store e) /\ rt_uri rt = L "/x" /\ HFuncCtx mw ∈ rt_handlers rt.
Proof.
  set (ops := [RNew; RGroup 0 (L "/g") [GMw 7; GSub [RHandle 1 0 (L "/in") [IFuncCtx 1]]];
               RHandle 0 0 (L "/x") [IFuncCtx 2]] : list (rop nat)).
  edestruct (build_split ex_ok ops 0 [] 0%Z) as (hp & e & Hhp & He & Hs); [vm_compute; reflexivity|].
  assert (Hlin : lineage (history ops) 3 [0; 3]).
  { apply (lineage_child _ 3 (ERoute 0 (L "GET") (L "/x") [IFuncCtx 2]) 0 [0]); [reflexivity|reflexivity|].
    by apply lineage_root. }
  exists ops, hp, e. eexists. exists 1, 7, 3, [0; 3].
  exists (mkRoute (L "GET") (L "/x") (L "/x") [HFuncCtx 7; HFuncCtx 2]).
  split; [exact Hhp|]. split; [exact He|]. split; [simpl; auto|]. split; [reflexivity|].
  split; [exact Hlin|]. split; [apply (bool_decide_eq_false _); vm_compute; reflexivity|].
  split.
  { exists [0; 3], (L "GET"). split; [exact Hlin|]. split; [do 3 eexists; reflexivity|].
    split; [reflexivity|]. split; [reflexivity|]. split; [reflexivity|]. split; [done|].
    vm_compute. repeat constructor. }
  rewrite Hs. split; [right; left|]. split; [reflexivity|]. left.
Qed.
Print Assumptions C10_group_middleware_refuted.
(** What holds: a Use call on a group changes exactly the routes inside it. *)
Theorem C10_use_confined_partial :
  forall (A : Type) re_ok (ops1 ops2 : list (rop A)) g hs r opts mem hp hp' e e' m1 m2,
  run_ops (ops1 ++ ops2) [] = Ok hp -> run_ops (ops1 ++ RUse g hs :: ops2) [] = Ok hp' ->
  Handler re_ok hp r opts mem = (Ok e, m1) -> Handler re_ok hp' r opts mem = (Ok e', m2) ->
  exists ls, leaves (history (ops1 ++ ops2)) r ls /\
    length (rs_slice (en_store e)) = length ls /\ length (rs_slice (en_store e')) = length ls /\
    forall i l path rt rt', ls !! i = Some l -> lineage (history (ops1 ++ ops2)) l path ->
      rs_slice (en_store e) !! i = Some rt -> rs_slice (en_store e') !! i = Some rt' ->
      (g ∉ path -> rt' = rt) /\
      (g ∈ path -> forall v x, v ∈ hs -> converts v x -> x ∈ rt_handlers rt').
Proof. exact @use_confined. Qed.
Print Assumptions C10_use_confined_partial.
Example C10_case :
  exists hp' e' m2, run_ops (take 4 ex_ops ++ RUse 1 [IFuncCtx 12] :: drop 4 ex_ops) [] = Ok hp' /\
    Handler ex_ok hp' 0 [] 0%Z = (Ok e', m2) /\
    map (fun rt => (rt_uri rt, rt_handlers rt)) (rs_slice (en_store e')) =
      [(L "/g/in", [HHandler 20; HFuncCtx 10; HFuncCtx 11; HFuncCtx 12; HHttp 1]);
       (L "/out", [HHandler 20; HFuncCtx 10; HHttpFunc 2; HFuncCtx 3])].
Proof.
  edestruct (build_split ex_ok (take 4 ex_ops ++ RUse 1 [IFuncCtx 12] :: drop 4 ex_ops) 0 [] 0%Z) as (hp & e & Hhp & He & Hs); [vm_compute; reflexivity|].
  exists hp, e. eexists. split; [exact Hhp|]. split; [exact He|]. rewrite Hs. reflexivity.
Qed.

(** ** C11 *)
Theorem C11_duplicates_panic :
  forall (A : Type) re_ok (ops : list (rop A)) hp r opts mem l1 l2 m p1 p2,
  run_ops ops [] = Ok hp -> let h := history ops in
  is_route h l1 m -> is_route h l2 m -> lineage h l1 (r :: p1) -> lineage h l2 (r :: p2) ->
  full_uri h (r :: p1) = full_uri h (r :: p2) -> l1 <> l2 ->
  is_panic (fst (Handler re_ok hp r opts mem)).
Proof. exact @duplicates_panic. Qed.
Print Assumptions C11_duplicates_panic.
Theorem C11_accepted_distinct :
  forall (A : Type) re_ok (ops : list (rop A)) hp r opts mem e mem',
  run_ops ops [] = Ok hp -> Handler re_ok hp r opts mem = (Ok e, mem') ->
  forall i j a b, rs_slice (en_store e) !! i = Some a -> rs_slice (en_store e) !! j = Some b ->
    rt_method a = rt_method b -> rt_uri a = rt_uri b -> i = j.
Proof. exact @accepted_distinct. Qed.
Print Assumptions C11_accepted_distinct.
(** the same URI reached through a group and directly *)
Example C11_case :
  exists hp, run_ops [RNew; RGroup 0 (L "/g") [GSub [RHandle 1 0 (L "/x") [IFuncCtx 1]]];
                      RHandle 0 0 (L "/g/x") [IFuncCtx 2]] [] = Ok hp /\
    is_panic (fst (Handler ex_ok hp 0 [] 0%Z)).
Proof.
  apply fail_split. vm_compute. reflexivity.
Qed.

(** ** C13 *)
Theorem C13_handler_accepts_iff :
  forall (A : Type) re_ok (ops : list (rop A)) hp r opts mem,
  run_ops ops [] = Ok hp ->
  (is_ok (fst (Handler re_ok hp r opts mem)) <-> registrable re_ok (history ops) r opts) /\
  (is_ok (fst (Handler re_ok hp r opts mem)) \/ is_panic (fst (Handler re_ok hp r opts mem))).
Proof. exact @handler_iff. Qed.
Print Assumptions C13_handler_accepts_iff.
(** both sides occur: the example table is registrable, and one with a trailing
    slash or an unfinished pattern is not *)
Example C13_case :
  registrable ex_ok (history ex_ops) 0 [] /\
  ~ registrable ex_ok (history (ex_ops ++ [RHandle 0 0 (L "/y/") [IFuncCtx 9]])) 0 [] /\
  ~ registrable ex_ok (history (ex_ops ++ [RHandle 0 0 (L "/<y") [IFuncCtx 9]])) 0 [].
Proof.
  split_and!.
  - edestruct (build_split ex_ok ex_ops 0 [] 0%Z) as (hp & e & Hhp & He & Hs); [vm_compute; reflexivity|].
    apply (C13_handler_accepts_iff nat ex_ok ex_ops hp 0 [] 0%Z Hhp). rewrite He. by exists e.
  - edestruct (fail_split ex_ok (ex_ops ++ [RHandle 0 0 (L "/y/") [IFuncCtx 9]]) 0 [] 0%Z) as (hp & Hhp & msg & Hm);
      [vm_compute; reflexivity|].
    intros Hr. apply (C13_handler_accepts_iff nat ex_ok _ hp 0 [] 0%Z Hhp) in Hr as [e He]. congruence.
  - edestruct (fail_split ex_ok (ex_ops ++ [RHandle 0 0 (L "/<y") [IFuncCtx 9]]) 0 [] 0%Z) as (hp & Hhp & msg & Hm);
      [vm_compute; reflexivity|].
    intros Hr. apply (C13_handler_accepts_iff nat ex_ok _ hp 0 [] 0%Z Hhp) in Hr as [e He]. congruence.
Qed.

(** ** C14 *)
Theorem C14_root_only :
  forall (A : Type) re_ok (ops : list (rop A)) hp g p pat,
  run_ops ops [] = Ok hp -> creations (history ops) !! g = Some (EGroup p pat) ->
  (forall hs, is_panic (Before hp g hs)) /\
  (forall opts mem, exists msg, Handler re_ok hp g opts mem = (Panic msg, mem)) /\
  (forall logger recovery, is_panic (Classic logger recovery hp g)) /\
  (forall prefix fs_nil a, is_panic (StaticAdvance hp g prefix fs_nil a)) /\
  (forall uri a, is_panic (Static hp g uri a)) /\
  (forall path a, is_panic (StaticFile hp g path a)).
Proof. exact @root_only. Qed.
Print Assumptions C14_root_only.
(** on a root they are the calls they abbreviate *)
Theorem C14_root_allowed :
  forall (A : Type) (ops : list (rop A)) hp r,
  run_ops ops [] = Ok hp -> creations (history ops) !! r = Some ENew ->
  (forall hs, is_ok (Before hp r hs)) /\
  (forall logger recovery, Classic logger recovery hp r =
     run_ops [RUse r [IHandler logger]; RUse r [IHandler recovery]] hp) /\
  (forall prefix a, StaticAdvance hp r prefix false a =
     run_ops [RHandle r 0 (filepath_Join [static_prefix prefix; L "/*"]) [IFuncCtx a];
              RHandle r 5 (filepath_Join [static_prefix prefix; L "/*"]) [IFuncCtx a]] hp) /\
  (forall prefix a, is_panic (StaticAdvance hp r prefix true a)) /\
  (forall uri a, Static hp r uri a =
     run_ops [RHandle r 0 (filepath_Join [static_prefix uri; L "/*"]) [IFuncCtx a];
              RHandle r 5 (filepath_Join [static_prefix uri; L "/*"]) [IFuncCtx a]] hp) /\
  (forall path a, StaticFile hp r path a =
     run_ops [RHandle r 0 path [IFuncCtx a]; RHandle r 5 path [IFuncCtx a]] hp).
Proof. exact @root_calls. Qed.
Print Assumptions C14_root_allowed.
Example C14_case :
  exists hp, run_ops ex_ops [] = Ok hp /\
    creations (history ex_ops) !! 0 = Some ENew /\ creations (history ex_ops) !! 1 = Some (EGroup 0 (L "/g")).
Proof. eexists. split; [vm_compute; reflexivity|]. split; reflexivity. Qed.

(** ** C15 *)
Theorem C15_any :
  forall (A : Type) excl (hp : heap A) r pat hs x,
  deref hp r = Ok x -> INil ∉ hs ->
  let kept := List.filter (fun m => negb (existsb (seqb m) excl))
                [L "GET"; L "POST"; L "DELETE"; L "PUT"; L "PATCH"; L "HEAD"; L "OPTIONS"] in
  ANY excl hp r pat hs =
    Ok (alter (set_sub (fun l => l ++ seq (length hp) (length kept))) r hp ++
        map (fun m => new_leaf r m pat hs) kept).
Proof. exact @any_eq. Qed.
Print Assumptions C15_any.
(** With the exclusions that the package starts with, these are five methods. *)
Theorem C15_any_default :
  forall (A : Type) (hp : heap A) r pat hs x,
  deref hp r = Ok x -> INil ∉ hs ->
  ANY MethodAnyExclude hp r pat hs =
    Ok (alter (set_sub (fun l => l ++ seq (length hp) 5)) r hp ++
        map (fun m => new_leaf r m pat hs) [L "GET"; L "POST"; L "DELETE"; L "PUT"; L "PATCH"]).
Proof. intros A hp r pat hs x. exact (@any_eq A MethodAnyExclude hp r pat hs x). Qed.
Print Assumptions C15_any_default.
Example C15_case :
  exists hp e m, run_ops [RNew; RAny 0 MethodAnyExclude (L "/x") [IFuncCtx 1]] [] = Ok hp /\
    Handler ex_ok hp 0 [] 0%Z = (Ok e, m) /\
    map rt_method (rs_slice (en_store e)) = [L "GET"; L "POST"; L "DELETE"; L "PUT"; L "PATCH"].
Proof.
  edestruct (build_split ex_ok [RNew; RAny 0 MethodAnyExclude (L "/x") [IFuncCtx 1]] 0 [] 0%Z) as (hp & e & Hhp & He & Hs); [vm_compute; reflexivity|].
  exists hp, e. eexists. split; [exact Hhp|]. split; [exact He|]. rewrite Hs. reflexivity.
Qed.

(** ** C41 (the tables; what requests see is in PropEngine) *)
(** The translation works segment by segment ... *)
Theorem C41_variant_segments :
  forall t v, _VariantUri ("/"%char :: t) = v <->
    Forall2 gin_seg (split_byte "/" ("/"%char :: t)) (split_byte "/" v).
Proof. exact variant_iff. Qed.
Print Assumptions C41_variant_segments.
(** ... is idempotent ... *)
Theorem C41_variant_idempotent :
  forall t, _VariantUri (_VariantUri ("/"%char :: t)) = _VariantUri ("/"%char :: t).
Proof. exact variant_idem. Qed.
Print Assumptions C41_variant_idempotent.
(** ... and leaves URIs without : and * segments alone. *)
Theorem C41_variant_plain :
  forall t, Forall (fun s => (forall n, s <> "*"%char :: n) /\ (forall n, s <> ":"%char :: n))
              (split_byte "/" ("/"%char :: t)) -> _VariantUri ("/"%char :: t) = "/"%char :: t.
Proof. exact variant_plain. Qed.
Print Assumptions C41_variant_plain.
(** Two registrations that differ only in spelling route patterns the gin way
    build the same trees, with the same handlers. *)
Theorem C41_same_tables :
  forall (A : Type) re_ok (ops ops' : list (rop A)) hp hp' r opts mem e e' m m',
  run_ops ops [] = Ok hp -> run_ops ops' [] = Ok hp' -> Forall2 ev_gin (history ops) (history ops') ->
  Handler re_ok hp r opts mem = (Ok e, m) -> Handler re_ok hp' r opts mem = (Ok e', m') ->
  Forall2 route_gin (rs_slice (en_store e)) (rs_slice (en_store e')) /\
  Forall2 mrouter_gin (en_routers e) (en_routers e') /\ en_options e = en_options e'.
Proof. exact @gin_engines. Qed.
Print Assumptions C41_same_tables.
Example C41_case :
  _VariantUri (L "/a/:id/*rest") = L "/a/<id>/*rest" /\
  pat_gin (L "/a/:id/*rest") (L "/a/<id>/*rest").
Proof.
  split; [reflexivity|]. right. exists (L "a/:id/*rest"), (L "a/<id>/*rest").
  split; [reflexivity|]. split; [reflexivity|].
  assert (Ho : forall s, has_prefix (L "*") s = false -> has_prefix (L ":") s = false -> gin_seg s s).
  { intros s H1 H2. apply gin_other; intros n ->; discriminate. }
  cbn. constructor; [exists (L "a"); split; by apply Ho|].
  constructor; [exists (L "<id>"); split; [apply (gin_colon (L "id"))|by apply Ho]|].
  constructor; [exists (L "*rest"); split; apply (gin_star (L "rest"))|constructor].
Qed.

(** ** C45 *)
(** False: without the option the limit becomes 0, not 32 MB, and a second
    engine changes the limit of the first (there is one limit). *)
Theorem C45_multipart_default_refuted :
  exists (ops : list (rop nat)) hp e mem',
    run_ops ops [] = Ok hp /\ Handler ex_ok hp 0 [] 33554432%Z = (Ok e, mem') /\ mem' = 0%Z.
Proof.
  edestruct (build_split ex_ok ex_ops 0 [] 33554432%Z) as (hp & e & Hhp & He & Hs); [vm_compute; reflexivity|].
  exists ex_ops, hp, e. eexists. split; [exact Hhp|]. split; [exact He|]. reflexivity.
Qed.
Print Assumptions C45_multipart_default_refuted.
Theorem C45_multipart_shared_refuted :
  exists (ops : list (rop nat)) hp e e' m1 m2,
    run_ops ops [] = Ok hp /\ Handler ex_ok hp 0 [WithMaxMultipartMemory 1000] 33554432%Z = (Ok e, m1) /\
    m1 = 1000%Z /\ Handler ex_ok hp 0 [WithMaxMultipartMemory 2000] m1 = (Ok e', m2) /\ m2 = 2000%Z.
Proof.
  edestruct (build_split ex_ok ex_ops 0 [WithMaxMultipartMemory 1000] 33554432%Z) as (hp & e & Hhp & He & Hs);
    [vm_compute; reflexivity|].
  edestruct (build_split ex_ok ex_ops 0 [WithMaxMultipartMemory 2000] 1000%Z) as (hp' & e' & Hhp' & He' & Hs');
    [vm_compute; reflexivity|].
  rewrite Hhp in Hhp'. injection Hhp' as <-.
  exists ex_ops, hp, e, e'. eexists. eexists. split; [exact Hhp|]. split; [exact He|].
  split; [reflexivity|]. split; [exact He'|]. reflexivity.
Qed.
Print Assumptions C45_multipart_shared_refuted.
(** What holds: the limit is that of the last option given, 0 without one. *)
Theorem C45_multipart_memory_partial :
  forall (A : Type) re_ok (ops : list (rop A)) hp r opts mem e mem',
  run_ops ops [] = Ok hp -> Handler re_ok hp r opts mem = (Ok e, mem') ->
  (forall fs m fs2, opts = fs ++ WithMaxMultipartMemory m :: fs2 ->
     (forall m', WithMaxMultipartMemory m' ∉ fs2) -> mem' = m) /\
  ((forall m', WithMaxMultipartMemory m' ∉ opts) -> mem' = 0%Z).
Proof. exact @multipart_memory. Qed.
Print Assumptions C45_multipart_memory_partial.

(** ** C50 (registration; calling handlers in turn is in PropEngine) *)
Theorem C50_nil_rejected :
  forall (A : Type) (hp : heap A) r m pat hs, INil ∈ hs -> ~ is_ok (exec (RHandle r m pat hs) hp).
Proof. exact @nil_rejected. Qed.
Print Assumptions C50_nil_rejected.
Theorem C50_unsupported_rejected :
  forall (A : Type) re_ok (ops : list (rop A)) hp r opts mem x path v,
  run_ops ops [] = Ok hp -> childless (history ops) x -> lineage (history ops) x (r :: path) ->
  v ∈ chain (history ops) (r :: path) x -> v = INil \/ v = IOther ->
  is_panic (fst (Handler re_ok hp r opts mem)).
Proof. exact @unsupported_rejected. Qed.
Print Assumptions C50_unsupported_rejected.
Example C50_case :
  exists hp, run_ops [RNew; RUse 0 [IOther]; RHandle 0 0 (L "/x") [IFuncCtx 1]] [] = Ok hp /\
    is_panic (fst (Handler ex_ok hp 0 [] 0%Z)).
Proof.
  apply fail_split. vm_compute. reflexivity.
Qed.
