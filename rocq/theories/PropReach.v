(** Property theorems: which routes some request reaches (C12). *)
From Verif Require Import Base GoStr Strconv Pattern Tree TreeSpec Header Router Ctx Engine TraceSpec EngineSpec ParamSpec Reach
  ExampleRegexp ExampleServe.

(** ** C12 *)
(** Exactly which routes are reached, for the table of one method without regexp
    segments: the i-th route is found for some path if and only if it is the first
    with its pattern, and for some number of segments no other route that goes
    before it accepts all that it accepts.  Missing for the full claim: it is false
    (C12_shadowed_refuted), and tables with regexp segments. *)
Theorem C12_reachable_partial :
  forall re_ok re_find (H : Type) (us : list (gostr * list H)) T tbl i p,
  adds re_ok us = Ok T -> routes_of re_ok us tbl -> no_regexp tbl -> tbl !! i = Some p ->
  (exists path e ps, Match re_find (Some T) path = (Some e, ps) /\ e_id e = i) <->
  (forall j, j < i -> tbl !! j <> Some p) /\ exists n, takes re_find n p /\ ~ overshadowed re_find tbl n p.
Proof. exact @tree_reached. Qed.
Print Assumptions C12_reachable_partial.

(** The same for an engine: such a route has a path with which every request of
    its method runs its handlers ... *)
Theorem C12_reached_partial :
  forall (A V : Type) re_ok re_find sniff parse_form ops r0 opts (e : engine A) m tbl i v p n,
  engine_of re_ok ops r0 opts e -> method_table re_ok e m tbl -> no_regexp tbl ->
  method_routes e m !! i = Some v -> tbl !! i = Some p -> (forall j, j < i -> tbl !! j <> Some p) ->
  takes re_find n p -> ~ overshadowed re_find tbl n p ->
  exists path, forall (code : handler A -> prog V) id x r body en px c',
    rq_method r = m -> rq_path r = path -> (forall n, ~ refused r n) -> (forall u, u ∈ routes e -> ~ verbatim re_ok e u r) ->
    ServeHTTP re_find sniff parse_form code e id x (arrive r body) = (en, px, c') ->
    turns code (rt_handlers v) (cn_log c') en.
Proof. exact @route_reached. Qed.
Print Assumptions C12_reached_partial.
(** ... and no request runs the handlers of another one (regexp segments allowed),
    unless the static router finds it. *)
Theorem C12_unreached_partial :
  forall (A V : Type) re_ok re_find sniff parse_form ops r0 opts (e : engine A) m tbl i p,
  engine_of re_ok ops r0 opts e -> method_table re_ok e m tbl -> tbl !! i = Some p ->
  ((exists j, j < i /\ tbl !! j = Some p) \/ forall n, takes re_find n p -> overshadowed re_find tbl n p) ->
  forall (code : handler A -> prog V) id x r body en px c',
    rq_method r = m -> (forall n, ~ refused r n) -> (forall u, u ∈ routes e -> ~ verbatim re_ok e u r) ->
    ServeHTTP re_find sniff parse_form code e id x (arrive r body) = (en, px, c') ->
    (forall v, v ∈ routes e -> ~ fits re_ok re_find v r) \/
    exists j w, j <> i /\ method_routes e m !! j = Some w /\ turns code (rt_handlers w) (cn_log c') en.
Proof. exact @route_unreached. Qed.
Print Assumptions C12_unreached_partial.

(** "/a/*" is never reached beside "/a/<x>" and "/a/<x>/*", though neither of them
    accepts all that it accepts; "/<y>/*" is. *)
Definition wx_routes : list (gostr * list nat) :=
  [(L "/a/*", [0]); (L "/a/<x>", [1]); (L "/a/<x>/*", [2]); (L "/<y>/*", [3])].
Definition wx_table : list (list pat) := map (fun u => calc_route ex_ok (fst u)) wx_routes.
Definition wx_a := mkPat PStatic (L "a") (L "a") [] None.
Definition wx_x := mkPat PHolder (L "<x>") (L "x") [L "x"] None.
Definition wx_y := mkPat PHolder (L "<y>") (L "y") [L "y"] None.
Definition wx_star := mkPat PMatchAll (L "*") [] [] None.
Example C12_reach_case :
  routes_of ex_ok wx_routes wx_table /\ is_ok (adds ex_ok wx_routes) /\ no_regexp wx_table /\
  (forall n, takes ex_find n [wx_a; wx_star] -> overshadowed ex_find wx_table n [wx_a; wx_star]) /\
  ~ covers ex_find 3 [wx_a; wx_star] [wx_a; wx_x] /\ ~ covers ex_find 2 [wx_a; wx_star] [wx_a; wx_x; wx_star] /\
  takes ex_find 2 [wx_y; wx_star] /\ ~ overshadowed ex_find wx_table 2 [wx_y; wx_star].
Proof.
  assert (Ht : wx_table = [[wx_a; wx_star]; [wx_a; wx_x]; [wx_a; wx_x; wx_star]; [wx_y; wx_star]]) by (vm_compute; reflexivity).
  split; [apply calc_table_ok; vm_compute; reflexivity|]. split; [vm_compute; eauto|]. rewrite Ht. split; [|split; [|split; [|split; [|split]]]].
  - intros r p Hr Hp. repeat (apply elem_of_cons in Hr as [->|Hr]; [repeat (apply elem_of_cons in Hp as [->|Hp]; [done|]); by apply elem_of_nil in Hp|]).
    by apply elem_of_nil in Hr.
  - intros n (ss & <- & Ha). inversion Ha as [| |? ? s ss' H1 H2]; subst.
    destruct (decide (length ss' = 1)) as [Hl|Hl].
    + exists [wx_a; wx_x]. split; [right; left|]. split; [done|]. split.
      * intros tt Hlen Hacc. inversion Hacc as [| |? ? u tt' H3 H4]; subst. apply accepts_next; [done|].
        destruct tt' as [|? [|]]; try (cbn in Hlen; lia). by apply accepts_last.
      * apply (beats_last_kind _ _ [wx_a]); [cbn; lia|]. unfold kind_lt. cbn. lia.
    + exists [wx_a; wx_x; wx_star]. split; [right; right; left|]. split; [done|]. split.
      * intros tt Hlen Hacc. inversion Hacc as [| |? ? u tt' H3 H4]; subst. apply accepts_next; [done|]. cbn [length] in Hlen.
        destruct tt' as [|u1 [|u2 tt']]; [inversion H4|cbn in Hlen; lia|]. apply accepts_next; [done|].
        destruct tt' as [|u3 tt']; [by apply accepts_last|by apply accepts_rest].
      * apply (beats_longer _ _ [wx_a]); [|done|done]. cbn [length app] in *. destruct ss' as [|? [|]]; [inversion H2|done|cbn; lia].
  - intros Hc. specialize (Hc [L "a"; L "b"; L "c"] eq_refl).
    assert (route_accepts ex_find [wx_a; wx_x] [L "a"; L "b"; L "c"]) as Hbad; [|clear Hc; repeat match goal with K : route_accepts _ _ _ |- _ => inversion K; clear K; subst; try discriminate end].
    apply Hc. apply accepts_next; [done|]. by apply accepts_rest.
  - intros Hc. specialize (Hc [L "a"; L "b"] eq_refl).
    assert (route_accepts ex_find [wx_a; wx_x; wx_star] [L "a"; L "b"]) as Hbad; [|clear Hc; repeat match goal with K : route_accepts _ _ _ |- _ => inversion K; clear K; subst; try discriminate end].
    apply Hc. apply accepts_next; [done|]. by apply accepts_last.
  - exists [L "b"; L "c"]. split; [done|]. apply accepts_next; [done|]. by apply accepts_last.
  - intros (q & Hq & Hne & Hc & _). specialize (Hc [L "b"; L "c"] eq_refl).
    assert (route_accepts ex_find q [L "b"; L "c"]) as Hbad by (apply Hc; apply accepts_next; [done|]; by apply accepts_last).
    repeat (apply elem_of_cons in Hq as [->|Hq]; [try done; inversion Hbad as [| |? ? ? ? Hs _]; discriminate Hs|]). by apply elem_of_nil in Hq.
Qed.
