(** Property theorems: which route serves a request and with which parameters
    (C03, C04), at the level of an engine. *)
From Verif Require Import Base GoStr Strconv Pattern Tree TreeSpec LastingSpec TreeLasting Header Router Ctx Engine TraceSpec
  EngineSpec ServeTop ServeDispatch ParamSpec ServeParams ExampleRegexp ExampleServe.
Local Open Scope Z_scope.

(** ** The example: a dead end at a regexp segment *)
Definition qx_ops : list (rop nat) :=
  [RNew; RHandle 0 0 (L "/<n ~ ^([0-9]+)$>/y") [IFuncCtx 1%nat]; RHandle 0 0 (L "/<x>/z") [IFuncCtx 2%nat]].
Definition qx_code (h : handler nat) : prog gostr := PDo OParams (fun _ => PRet).
Definition qx_answers (l : list (event gostr)) (k : gostr) : list (option gostr) :=
  omap (fun ev => match ev with
                  | EvCall o r => match o return outcome (ans o) -> option (option gostr) with
                                  | OParams => fun r => match r with Norm (Some m) => Some (m !! k) | _ => None end
                                  | _ => fun _ => None
                                  end r
                  | _ => None
                  end) l.

(** ** C03 *)
(** Unless the path is spelled like a literal route of the static router: either
    no route fits, or the handlers run are those of a route for the method that
    has priority over every other one accepting the path, and of the routes with
    the same pattern the first one. *)
Theorem C03_served_by_the_best_route :
  forall (A V : Type) re_ok re_find sniff parse_form (code : handler A -> prog V) ops r0 opts e id x r body en px c',
  engine_of re_ok ops r0 opts e ->
  ServeHTTP re_find sniff parse_form code e id x (arrive r body) = (en, px, c') ->
  (forall n, ~ refused r n) -> (forall u, u ∈ routes e -> ~ verbatim re_ok e u r) ->
  (forall v, v ∈ routes e -> ~ fits re_ok re_find v r) \/
  exists v p tbl, method_table re_ok e (rq_method r) tbl /\ chosen re_find tbl (path_segs (rq_path r)) p /\
    first_with e (rq_method r) tbl p v /\ turns code (rt_handlers v) (cn_log c') en.
Proof. exact @serve_best. Qed.
Print Assumptions C03_served_by_the_best_route.
Lemma qx_engine : exists e px c', engine_of ex_ok qx_ops 0 [] e /\ (forall u, u ∈ routes e -> ~ verbatim ex_ok e u (get (L "/12/z"))) /\
  map rt_variant (method_routes e (L "GET")) = [L "/<n ~ ^([0-9]+)$>/y"; L "/<x>/z"] /\
  ServeHTTP ex_find ex_sniff ex_form qx_code e 0 newContext (arrive (get (L "/12/z")) no_body) = (EDone, px, c') /\
  starts (cn_log c') = [0%nat] /\
  qx_answers (cn_log c') (L "x") = [Some (L "12")] /\ qx_answers (cn_log c') (L "n") = [Some (L "12")].
Proof.
  edestruct (with_engine_split ex_ok qx_ops [] (fun e =>
    let '(en, _, c) := ServeHTTP ex_find ex_sniff ex_form qx_code e 0 newContext (arrive (get (L "/12/z")) no_body) in
    (o_static (en_options e), map rt_variant (method_routes e (L "GET")), en, starts (cn_log c),
     qx_answers (cn_log c) (L "x"), qx_answers (cn_log c) (L "n")))) as (e & He & Hs); [vm_compute; reflexivity|].
  destruct (ServeHTTP ex_find ex_sniff ex_form qx_code e 0 newContext (arrive (get (L "/12/z")) no_body)) as [[en px] c'] eqn:H.
  pose proof (f_equal snd Hs) as E1. pose proof (f_equal (fun y => y.1.2) Hs) as E2. pose proof (f_equal (fun y => y.1.1.2) Hs) as E3.
  pose proof (f_equal (fun y => y.1.1.1.2) Hs) as E4. pose proof (f_equal (fun y => y.1.1.1.1.2) Hs) as E5.
  pose proof (f_equal (fun y => y.1.1.1.1.1) Hs) as E6. cbn [fst snd] in E1, E2, E3, E4, E5, E6. subst en.
  exists e, px, c'. split; [exact He|]. split; [|split_and!; [exact E5|exact H|exact E3|exact E2|exact E1]].
  intros u _ [Hu _]. congruence.
Qed.
Lemma qx_accepted path : path <> L "*" -> forall n, ~ refused (get path) n.
Proof.
  intros Hp n [[H|[H|H]]|_ H]; [destruct H as [H|[_ H]]; discriminate H|exact (Hp H)|discriminate H|].
  apply H. left.
Qed.
Example C03_served_case : forall n, ~ refused (get (L "/12/z")) n.
Proof. exact (qx_accepted (L "/12/z") ltac:(discriminate)). Qed.

(** ** C04 *)
(** In every table, names that the chosen route binds otherwise than by a regexp
    segment before its last segment have the value it gives them.  Missing for the
    full claim: names bound by such a regexp segment, and names it does not bind. *)
Theorem C04_lasting_partial :
  forall (H : Type) re_ok re_find (us : list (gostr * list H)) T path tbl e ps,
  adds re_ok us = Ok T -> routes_of re_ok us tbl -> Match re_find (Some T) path = (Some e, ps) ->
  exists r m, tbl !! e_id e = Some r /\ ps = Some m /\
    forall k, k ∈ lasting_names 0 r ->
      exists v, m !! k = Some v /\ (list_to_map (route_binds re_find 0 r (path_segs path)) : Params) !! k = Some v.
Proof. exact @params_lasting. Qed.
Print Assumptions C04_lasting_partial.
(** x is given back although the search first went into the branch of n *)
Example C04_lasting_case :
  lasting_names 0 (calc_route ex_ok (L "/<x>/z")) = [L "x"] /\
  lasting_names 0 (calc_route ex_ok (L "/<n ~ ^([0-9]+)$>/<y>/*")) = [L "y"; L "*0"].
Proof. split; vm_compute; reflexivity. Qed.

(** What handlers see of it: ctx.Params is, up to their own changes, a map m with
    these bindings. *)
Theorem C04_served_params_partial :
  forall (A V : Type) re_ok re_find sniff parse_form (code : handler A -> prog V) ops r0 opts e id x r body en px c',
  engine_of re_ok ops r0 opts e ->
  ServeHTTP re_find sniff parse_form code e id x (arrive r body) = (en, px, c') ->
  (forall n, ~ refused r n) -> (forall u, u ∈ routes e -> ~ verbatim re_ok e u r) ->
  (forall v, v ∈ routes e -> ~ fits re_ok re_find v r) \/
  exists v p tbl m, method_table re_ok e (rq_method r) tbl /\ chosen re_find tbl (path_segs (rq_path r)) p /\
    first_with e (rq_method r) tbl p v /\ turns code (rt_handlers v) (cn_log c') en /\ hist (param_rule (Some m)) (cn_log c') /\
    bindings re_find tbl (path_segs (rq_path r)) p m.
Proof. exact @serve_params. Qed.
Print Assumptions C04_served_params_partial.
(** the handlers of /<x>/z see x, and n left over from the dead end *)
Example C04_served_case := qx_engine.
