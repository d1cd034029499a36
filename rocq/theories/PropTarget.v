(** Property theorems: path parameters arrive as they were sent (C107), over a model
    of how net/http makes the path of a request out of its target. *)
From Coq Require Import ZArith NArith.
From Verif Require Import Base GoStr GoStrFacts Strconv Pattern Tree TreeSpec LastingSpec Header Router Ctx Engine TraceSpec EngineSpec ServeTop
  ServeDispatch ParamSpec ServeParams UtilSpec StaticSpec StaticFacts RedirectSpec NetPath TargetSpec TargetFacts ExampleRegexp ExampleServe.
Local Open Scope Z_scope.

(** ** C107 *)
(** A target that spells the segments vs, in whatever way, makes the server route by
    them; one with a malformed escape is refused by the server, as is shown by None.
    Every list of segments can be asked for, whatever bytes they have. *)
Theorem C107_target :
  forall parseAuthority uri,
  (forall vs, asks_for parseAuthority uri vs -> request_path parseAuthority uri = Some (slashed vs)) /\
  (asks_badly parseAuthority uri -> request_path parseAuthority uri = None).
Proof. intros pa uri. split; [intros vs; apply asked_path|apply asked_badly]. Qed.
Print Assumptions C107_target.
Theorem C107_every :
  forall parseAuthority vs, vs <> [] -> exists uri, asks_for parseAuthority uri vs /\ Forall (fun c => (N_of_ascii c < 128)%N) uri.
Proof. exact every_target. Qed.
Print Assumptions C107_every.
Definition et_auth (a : gostr) : option gostr := Some a.
Lemma et_spells t v : forallb (fun c => bool_decide (c ≠ "/"%char) && bool_decide (c ≠ "?"%char) && bool_decide ((32 <= N_of_ascii c)%N /\ N_of_ascii c <> 127%N)) t = true ->
  pct_decode t = Some v -> spells t v.
Proof.
  intros H Hv. rewrite forallb_forall in H.
  assert (Hc : forall c, c ∈ t -> c <> "/"%char /\ c <> "?"%char /\ (32 <= N_of_ascii c)%N /\ N_of_ascii c <> 127%N).
  { intros c Hc. apply elem_of_list_In in Hc. specialize (H c Hc). rewrite !andb_true_iff, !bool_decide_eq_true in H. tauto. }
  split_and!; [by intros Hs; apply Hc in Hs as [? _]|by intros Hs; apply Hc in Hs as (_ & ? & _)| |done].
  apply Forall_forall. intros c Hs. by apply Hc in Hs as (_ & _ & ?).
Qed.
Ltac et_yes := apply (bool_decide_eq_true _); vm_compute; reflexivity.
Ltac et_no := apply (bool_decide_eq_false _); vm_compute; reflexivity.
Definition et_name : gostr := [ascii_of_nat 74; ascii_of_nat 195; ascii_of_nat 188] ++ L "rgen M".
Definition et_uri : gostr := L "http://example.org/u/J%c3%BCrgen%20M/a%2Fb/c?x=1".
Lemma et_asks : asks_for et_auth et_uri [L "u"; et_name; L "a/b"; L "c"].
Proof.
  exists (L "http://example.org"), [L "u"; L "J%c3%BCrgen%20M"; L "a%2Fb"; L "c"], (Some (L "x=1")). split_and!; [|done|reflexivity| |].
  - apply (front_host et_auth (L "http") (L "example.org")); [|et_no|et_no|unfold no_control; et_yes|done].
    exists "h"%char, (L "ttp"). split; [done|]. split; [left; split; vm_compute; discriminate|]. repeat (constructor; [left; left; split; vm_compute; discriminate|]). constructor.
  - unfold no_control. et_yes.
  - repeat (constructor; [apply et_spells; vm_compute; reflexivity|]). constructor.
Qed.
Example C107_target_case :
  asks_for et_auth et_uri [L "u"; et_name; L "a/b"; L "c"] /\ request_path et_auth et_uri = Some (L "/u/" ++ et_name ++ L "/a/b/c") /\
  asks_badly et_auth (L "/u/100%?x").
Proof.
  split; [exact et_asks|]. split; [vm_compute; reflexivity|].
  exists [], (L "u/100%"), (Some (L "x")). split; [constructor|]. split; [reflexivity|].
  split; [et_no|]. split; [unfold no_control; et_yes|]. split; [unfold no_control; et_yes|vm_compute; reflexivity].
Qed.

(** A request that asks for segments without "/", the last of them not empty, is
    served, unless a literal route is spelled like its path, by the route chosen for
    these segments, and its parameters <name> have the segments as values.  Missing
    for the full claim: values with "/" and an empty last segment (both refuted below). *)
Theorem C107_served_partial :
  forall (A V : Type) re_ok re_find sniff parse_form (code : handler A -> prog V) parseAuthority ops r0 opts e id x r body en px c' vs,
  engine_of re_ok ops r0 opts e ->
  ServeHTTP re_find sniff parse_form code e id x (arrive r body) = (en, px, c') ->
  (forall n, ~ refused r n) -> (forall u, u ∈ routes e -> ~ verbatim re_ok e u r) ->
  request_path parseAuthority (rq_uri r) = Some (rq_path r) -> asks_for parseAuthority (rq_uri r) vs ->
  Forall (fun v => "/"%char ∉ v) vs -> last vs <> Some [] ->
  (forall v, v ∈ routes e -> ~ fits re_ok re_find v r) \/
  exists v p tbl m, method_table re_ok e (rq_method r) tbl /\ chosen re_find tbl vs p /\ first_with e (rq_method r) tbl p v /\
    turns code (rt_handlers v) (cn_log c') en /\ hist (param_rule (Some m)) (cn_log c') /\ bindings re_find tbl vs p m /\
    (NoDup (route_names 0 p) -> forall c h t, p = c ++ h :: t -> p_typ h = PHolder -> p_parsed h <> L "_" ->
       m !! p_parsed h = vs !! length c).
Proof.
  intros A V re_ok re_find sniff parse_form code pa ops r0 opts e id x r body en px c' vs He Hs Hn Hv Hp Ha Hvs Hl.
  assert (Hne : vs <> []). { destruct Ha as (f & ts & q & _ & Hts & _ & _ & H). destruct H; done. }
  rewrite (asked_path pa _ vs Ha) in Hp. assert (Hq : slashed vs = rq_path r) by congruence.
  destruct (serve_params re_ok re_find sniff parse_form code ops r0 opts e id x r body en px c' He Hs Hn Hv) as [?|(v & p & tbl & m & H1 & H2 & H3 & H4 & H5 & H6)]; [by left|].
  rewrite <- Hq, segs_of in H2, H6 by done. right. exists v, p, tbl, m. split_and!; [done..|].
  intros Hd c h t E Ht Hu. eapply holder_value; [done|apply H2|done..].
Qed.
Print Assumptions C107_served_partial.

(** A named catch-all at the end of the route gets the rest of the path, with the
    slashes that were sent as %2F as well, unless the rest is empty or ends with "/". *)
Theorem C107_rest_partial :
  forall (A V : Type) re_ok re_find sniff parse_form (code : handler A -> prog V) parseAuthority ops r0 opts e id x r body en px c' vs ws,
  engine_of re_ok ops r0 opts e ->
  ServeHTTP re_find sniff parse_form code e id x (arrive r body) = (en, px, c') ->
  (forall n, ~ refused r n) -> (forall u, u ∈ routes e -> ~ verbatim re_ok e u r) ->
  request_path parseAuthority (rq_uri r) = Some (rq_path r) -> asks_for parseAuthority (rq_uri r) (vs ++ ws) ->
  Forall (fun v => "/"%char ∉ v) vs -> join (L "/") ws <> [] -> (forall t, join (L "/") ws <> t ++ ["/"%char]) ->
  (forall v, v ∈ routes e -> ~ fits re_ok re_find v r) \/
  exists v p tbl m, method_table re_ok e (rq_method r) tbl /\ chosen re_find tbl (vs ++ split_byte "/" (join (L "/") ws)) p /\
    first_with e (rq_method r) tbl p v /\
    turns code (rt_handlers v) (cn_log c') en /\ hist (param_rule (Some m)) (cn_log c') /\
    (NoDup (route_names 0 p) -> forall c h t, p = c ++ h :: t -> p_typ h = PHolder -> p_parsed h <> L "_" -> (length c < length vs)%nat ->
       m !! p_parsed h = vs !! length c) /\
    (NoDup (route_names 0 p) -> forall c h, p = c ++ [h] -> length c = length vs ->
       p_typ h = PMatchAll -> p_parsed h <> [] -> p_parsed h <> L "_" -> m !! p_parsed h = Some (join (L "/") ws)).
Proof.
  intros A V re_ok re_find sniff parse_form code pa ops r0 opts e id x r body en px c' vs ws He Hs Hn Hv Hp Ha Hvs Hw Hl.
  rewrite (asked_path pa _ _ Ha) in Hp. assert (Hq : slashed (vs ++ ws) = rq_path r) by congruence.
  destruct (serve_params re_ok re_find sniff parse_form code ops r0 opts e id x r body en px c' He Hs Hn Hv) as [?|(v & p & tbl & m & H1 & H2 & H3 & H4 & H5 & H6)]; [by left|].
  rewrite <- Hq, segs_rest in H2, H6 by done. right. exists v, p, tbl, m. split_and!; [done..| |].
  - intros Hd c h t E Ht Hu Hc. rewrite <- (lookup_app_l vs (split_byte "/" (join (L "/") ws))) by done. eapply holder_value; [done|apply H2|done..].
  - intros Hd c h E Hc Ht H0 Hu. assert (route_accepts re_find p (vs ++ split_byte "/" (join (L "/") ws))) as Hr by apply H2.
    rewrite (rest_value re_find tbl _ p m c h H6 Hr Hd E Ht H0 Hu), Hc, drop_app. f_equal. apply (join_split "/").
Qed.
Print Assumptions C107_rest_partial.

Definition et_ops : list (rop nat) := [RNew; RHandle 0 0 (L "/u/<name>/*rest") [IFuncCtx 1%nat]; RHandle 0 0 (L "/v/<name>") [IFuncCtx 2%nat]].
Definition et_code (h : handler nat) : prog gostr := PDo OParams (fun _ => PRet).
Definition et_req (uri path : gostr) : request := mkReq (L "GET") 1 1 uri path ∅ (L "192.0.2.1:9") false.
Definition et_answers (l : list (event gostr)) (k : gostr) : list (option gostr) :=
  omap (fun ev => match ev with
                  | EvCall o r => match o return outcome (ans o) -> option (option gostr) with
                                  | OParams => fun r => match r with Norm (Some m) => Some (m !! k) | _ => None end
                                  | _ => fun _ => None
                                  end r
                  | _ => None
                  end) l.
Notation et_run e r := (ServeHTTP ex_find ex_sniff ex_form et_code e 0 newContext (arrive r no_body)).
Definition et_first : request := et_req et_uri (L "/u/" ++ et_name ++ L "/a/b/c").
Definition et_second : request := et_req (L "/v/%2e%2E") (L "/v/..").
Definition et_third : request := et_req (L "/v/a%2Fb") (L "/v/a/b").
Definition et_fourth : request := et_req (L "/v/") (L "/v/").
Lemma et_accepted uri path : uri <> L "*" -> forall n, ~ refused (et_req uri path) n.
Proof.
  intros Hp n [[H|[H|H]]|_ H]; [destruct H as [H|[_ H]]; discriminate H|exact (Hp H)|discriminate H|]. apply H. left.
Qed.
Lemma et_engine : exists e, engine_of ex_ok et_ops 0 [] e /\ (forall u r, u ∈ routes e -> ~ verbatim ex_ok e u r) /\
  map rt_variant (method_routes e (L "GET")) = [L "/u/<name>/*rest"; L "/v/<name>"] /\
  (exists v, v ∈ routes e /\ rt_method v = L "GET" /\ rt_variant v = L "/v/<name>" /\ rt_handlers v <> []) /\
  (exists px c', et_run e et_first = (EDone, px, c') /\ et_answers (cn_log c') (L "name") = [Some et_name] /\
     et_answers (cn_log c') (L "rest") = [Some (L "a/b/c")]) /\
  (exists px c', et_run e et_second = (EDone, px, c') /\ et_answers (cn_log c') (L "name") = [Some (L "..")]) /\
  (exists px c', et_run e et_third = (EDone, px, c') /\ starts (cn_log c') = [] /\ option_map fst (rw_sent (cn_rw c')) = Some 404) /\
  (exists px c', et_run e et_fourth = (EDone, px, c') /\ starts (cn_log c') = []).
Proof.
  edestruct (with_engine_split ex_ok et_ops [] (fun e =>
    let '(en1, _, c1) := et_run e et_first in let '(en2, _, c2) := et_run e et_second in let '(en3, _, c3) := et_run e et_third in
    let '(en4, _, c4) := et_run e et_fourth in
    (((o_static (en_options e), map rt_variant (method_routes e (L "GET")), map (fun v => (rt_method v, rt_variant v, length (rt_handlers v))) (routes e)),
      (en1, et_answers (cn_log c1) (L "name"), et_answers (cn_log c1) (L "rest"))),
     ((en2, et_answers (cn_log c2) (L "name")), (en3, starts (cn_log c3), option_map fst (rw_sent (cn_rw c3)), en4, starts (cn_log c4)))))) as (e & He & Hs); [vm_compute; reflexivity|].
  exists e. split; [exact He|].
  destruct (et_run e et_first) as [[en1 px1] c1] eqn:H1. destruct (et_run e et_second) as [[en2 px2] c2] eqn:H2.
  destruct (et_run e et_third) as [[en3 px3] c3] eqn:H3. destruct (et_run e et_fourth) as [[en4 px4] c4] eqn:H4.
  apply pair_equal_spec in Hs as [Hs1 Hs2]. apply pair_equal_spec in Hs1 as [Hs0 Hs1]. apply pair_equal_spec in Hs2 as [Hs2 Hs3].
  apply pair_equal_spec in Hs0 as [Hs0 Hr]. apply pair_equal_spec in Hs0 as [Ho Hm].
  apply pair_equal_spec in Hs1 as [Hs1 A1]. apply pair_equal_spec in Hs1 as [E1 A2].
  apply pair_equal_spec in Hs2 as [E2 A3]. apply pair_equal_spec in Hs3 as [Hs3 A6]. apply pair_equal_spec in Hs3 as [Hs3 E4]. apply pair_equal_spec in Hs3 as [Hs3 A4]. apply pair_equal_spec in Hs3 as [E3 A5].
  subst en1 en2 en3 en4. split_and!; [|exact Hm| |by exists px1, c1|by exists px2, c2|by exists px3, c3|by exists px4, c4].
  - intros u r _ [Hu _]. congruence.
  - destruct (routes e) as [|v0 [|v1 [|]]]; try discriminate Hr. exists v1. split; [right; left|]. injection Hr as _ _ _ H5 H6 H7. split_and!; [done..|]. by destruct (rt_handlers v1).
Qed.
Example C107_served_case :
  exists e, engine_of ex_ok et_ops 0 [] e /\ (forall n, ~ refused et_second n) /\ (forall u r, u ∈ routes e -> ~ verbatim ex_ok e u r) /\
    request_path et_auth (rq_uri et_second) = Some (rq_path et_second) /\ asks_for et_auth (rq_uri et_second) [L "v"; L ".."] /\
    exists px c', et_run e et_second = (EDone, px, c') /\ et_answers (cn_log c') (L "name") = [Some (L "..")].
Proof.
  destruct et_engine as (e & H1 & H2 & _ & _ & _ & H3 & _ & _). exists e. split_and!; [exact H1|apply et_accepted; discriminate|exact H2|vm_compute; reflexivity| |exact H3].
  exists [], [L "v"; L "%2e%2E"], None. split_and!; [constructor|done|reflexivity|constructor|].
  repeat (constructor; [apply et_spells; vm_compute; reflexivity|]). constructor.
Qed.
Example C107_rest_case :
  exists e, engine_of ex_ok et_ops 0 [] e /\ (forall n, ~ refused et_first n) /\ (forall u r, u ∈ routes e -> ~ verbatim ex_ok e u r) /\
    request_path et_auth (rq_uri et_first) = Some (rq_path et_first) /\ asks_for et_auth (rq_uri et_first) ([L "u"; et_name] ++ [L "a/b"; L "c"]) /\
    exists px c', et_run e et_first = (EDone, px, c') /\ et_answers (cn_log c') (L "name") = [Some et_name] /\
      et_answers (cn_log c') (L "rest") = [Some (L "a/b/c")].
Proof.
  destruct et_engine as (e & H1 & H2 & _ & _ & H3 & _). exists e. split_and!; [exact H1|apply et_accepted; discriminate|exact H2|vm_compute; reflexivity|exact et_asks|exact H3].
Qed.

(** The path is routed by after its escapes are decoded, so that a value with "/"
    does not reach the route that takes it, however it is sent. *)
Theorem C107_slash_refuted :
  ~ forall (A V : Type) re_ok re_find sniff parse_form (code : handler A -> prog V) parseAuthority ops r0 opts e id x r body en px c' vs u p,
    engine_of re_ok ops r0 opts e ->
    ServeHTTP re_find sniff parse_form code e id x (arrive r body) = (en, px, c') -> (forall n, ~ refused r n) ->
    request_path parseAuthority (rq_uri r) = Some (rq_path r) -> asks_for parseAuthority (rq_uri r) vs ->
    u ∈ routes e -> rt_method u = rq_method r -> uri_route re_ok (rt_variant u) p -> route_accepts re_find p vs -> rt_handlers u <> [] ->
    starts (cn_log c') <> [].
Proof.
  intros H. destruct et_engine as (e & H1 & H2 & _ & (u & Hu & Hm & Hv & Hh) & _ & _ & (px & c' & H3 & H4 & _) & _).
  revert H4. apply (H _ _ _ _ _ _ _ et_auth _ _ _ _ _ _ _ _ _ _ _ [L "v"; L "a/b"] u (calc_route ex_ok (L "/v/<name>")) H1 H3).
  - apply et_accepted. discriminate.
  - vm_compute. reflexivity.
  - exists [], [L "v"; L "a%2Fb"], None. split_and!; [constructor|done|reflexivity|constructor|].
    repeat (constructor; [apply et_spells; vm_compute; reflexivity|]). constructor.
  - done.
  - done.
  - rewrite Hv. apply calc_route_ok. vm_compute. reflexivity.
  - apply accepts_next; [reflexivity|]. apply accepts_last. exact I.
  - exact Hh.
Qed.
Print Assumptions C107_slash_refuted.

(** A slash at the end of the path is dropped: an empty value at the end does not
    arrive either. *)
Theorem C107_empty_refuted :
  ~ forall (A V : Type) re_ok re_find sniff parse_form (code : handler A -> prog V) parseAuthority ops r0 opts e id x r body en px c' vs u p,
    engine_of re_ok ops r0 opts e ->
    ServeHTTP re_find sniff parse_form code e id x (arrive r body) = (en, px, c') -> (forall n, ~ refused r n) ->
    request_path parseAuthority (rq_uri r) = Some (rq_path r) -> asks_for parseAuthority (rq_uri r) vs -> Forall (fun v => "/"%char ∉ v) vs ->
    u ∈ routes e -> rt_method u = rq_method r -> uri_route re_ok (rt_variant u) p -> route_accepts re_find p vs -> rt_handlers u <> [] ->
    starts (cn_log c') <> [].
Proof.
  intros H. destruct et_engine as (e & H1 & H2 & _ & (u & Hu & Hm & Hv & Hh) & _ & _ & _ & (px & c' & H3 & H4)).
  revert H4. apply (H _ _ _ _ _ _ _ et_auth _ _ _ _ _ _ _ _ _ _ _ [L "v"; []] u (calc_route ex_ok (L "/v/<name>")) H1 H3).
  - apply et_accepted. discriminate.
  - vm_compute. reflexivity.
  - exists [], [L "v"; []], None. split_and!; [constructor|done|reflexivity|constructor|].
    repeat (constructor; [apply et_spells; vm_compute; reflexivity|]). constructor.
  - repeat constructor; et_no.
  - done.
  - done.
  - rewrite Hv. apply calc_route_ok. vm_compute. reflexivity.
  - apply accepts_next; [reflexivity|]. apply accepts_last. exact I.
  - exact Hh.
Qed.
Print Assumptions C107_empty_refuted.
