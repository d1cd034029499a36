(** Property theorems: routing (C01-C06, C48, C49). *)
From Verif Require Import Base GoStr Strconv Pattern PatternSpec PatternFacts Tree TreeSpec
  TreeTop TreeOrder TreeParams RoutingFacts ExampleRegexp.

(** the example table: URIs with their handlers (numbers) *)
Definition ex_routes : list (gostr * list nat) :=
  [(L "/", [0]); (L "/a/<id>", [1]); (L "/a/*rest", [2]); (L "/a/b", [3]);
   (L "/<n ~ ^([0-9]+)$>/y", [4]); (L "/<x>/<y>", [5])].
Definition ex_tree : node nat := match adds ex_ok ex_routes with Ok T => T | _ => newTree end.
Example ex_tree_ok : adds ex_ok ex_routes = Ok ex_tree.
Proof. vm_compute. reflexivity. Qed.

(** C01, on the tree of one method.  A dispatched request goes to the handlers
    of a registered route that accepts the path. *)
Theorem C01_dispatch_sound :
  forall (H : Type) re_ok re_find (us : list (gostr * list H)) T path,
  adds re_ok us = Ok T ->
  forall e ps, Match re_find (Some T) path = (Some e, ps) ->
  exists u r, us !! e_id e = Some (u, e_handlers e) /\ uri_route re_ok u r /\
              route_accepts re_find r (path_segs path).
Proof. exact dispatch_sound. Qed.
Print Assumptions C01_dispatch_sound.
Example C01_case :
  exists e ps, Match ex_find (Some ex_tree) (L "/a/b/c") = (Some e, ps) /\ e_handlers e = [2].
Proof. eexists. eexists. split; [apply match_split; vm_compute; reflexivity|reflexivity]. Qed.

(** C02, on the tree of one method. *)
Theorem C02_dispatch_complete :
  forall (H : Type) re_ok re_find (us : list (gostr * list H)) T path,
  adds re_ok us = Ok T ->
  forall u hs r, (u, hs) ∈ us -> uri_route re_ok u r -> route_accepts re_find r (path_segs path) ->
  exists e ps, Match re_find (Some T) path = (Some e, ps).
Proof. exact dispatch_complete. Qed.
Print Assumptions C02_dispatch_complete.
(** a request that backtracks: 12/z enters the regexp branch and leaves it *)
Example C02_case :
  let r := calc_route ex_ok (L "/<x>/<y>") in
  (L "/<x>/<y>", [5]) ∈ ex_routes /\ uri_route ex_ok (L "/<x>/<y>") r /\
  route_accepts ex_find r (path_segs (L "/12/z")) /\
  exists e ps, Match ex_find (Some ex_tree) (L "/12/z") = (Some e, ps) /\ e_handlers e = [5].
Proof.
  intros r. split; [|split; [|split]].
  - do 5 right. left.
  - apply calc_route_ok. vm_compute. reflexivity.
  - replace r with [mkPat PHolder (L "<x>") (L "x") [L "x"] None; mkPat PHolder (L "<y>") (L "y") [L "y"] None]
      by (vm_compute; reflexivity).
    replace (path_segs (L "/12/z")) with [L "12"; L "z"] by (vm_compute; reflexivity).
    repeat constructor.
  - eexists. eexists. split; [apply match_split; vm_compute; reflexivity|reflexivity].
Qed.

(** C03.  The chosen route beats every other accepting route in the order
    [beats], which is a strict order; among identical routes it is the first. *)
Theorem C03_priority :
  forall (H : Type) re_ok re_find (us : list (gostr * list H)) T path,
  adds re_ok us = Ok T ->
  forall tbl e ps,
  routes_of re_ok us tbl ->
  Match re_find (Some T) path = (Some e, ps) ->
  exists r, tbl !! e_id e = Some r /\
    (forall j, j < e_id e -> tbl !! j <> Some r) /\
    forall r', r' ∈ tbl -> route_accepts re_find r' (path_segs path) -> r' <> r ->
      beats tbl (length (path_segs path)) r r' /\ ~ beats tbl (length (path_segs path)) r' r.
Proof. exact dispatch_priority. Qed.
Print Assumptions C03_priority.
(** four routes accept /a/b: the literal one wins *)
Example C03_case :
  exists e ps, Match ex_find (Some ex_tree) (L "/a/b") = (Some e, ps) /\ e_handlers e = [3].
Proof. eexists. eexists. split; [apply match_split; vm_compute; reflexivity|reflexivity]. Qed.

(** C04 is false: a regexp segment of a dead-end branch leaves its parameter
    behind, so ctx.Params has a name the chosen route does not have ... *)
Theorem C04_params_exact_refuted :
  exists re_ok re_find (us : list (gostr * list nat)) T tbl path e ps r k v,
    adds re_ok us = Ok T /\ routes_of re_ok us tbl /\
    Match re_find (Some T) path = (Some e, Some ps) /\ tbl !! e_id e = Some r /\
    ps !! k = Some v /\ k ∉ route_names 0 r.
Proof.
  exists ex_ok, ex_find, [(L "/<n ~ ^([0-9]+)$>/y", [0]); (L "/<x>/z", [1])].
  eexists. eexists. exists (L "/12/z"). eexists. eexists. eexists. exists (L "n"), (L "12").
  split; [vm_compute; reflexivity|]. split.
  { apply calc_table_ok. vm_compute. reflexivity. }
  split; [apply match_split; vm_compute; reflexivity|]. split; [vm_compute; reflexivity|].
  split; [vm_compute; reflexivity|]. apply (bool_decide_eq_false _). vm_compute. reflexivity.
Qed.
Print Assumptions C04_params_exact_refuted.

(** ... and it can replace the value the chosen route captured itself. *)
Theorem C04_params_value_refuted :
  exists re_ok re_find (us : list (gostr * list nat)) T tbl path e ps r k v v',
    adds re_ok us = Ok T /\ routes_of re_ok us tbl /\
    Match re_find (Some T) path = (Some e, Some ps) /\ tbl !! e_id e = Some r /\
    NoDup (route_names 0 r) /\ bound_by re_find 0 r (path_segs path) k v /\
    ps !! k = Some v' /\ v' <> v.
Proof.
  exists ex_ok, ex_find,
    [(L "/<id ~ ^([0-9]+)$>/<id ~ ^([a-z]+)$>/x", [0]); (L "/<id ~ ^([0-9]+)$>/<_>/y", [1])].
  eexists. eexists. exists (L "/12/ab/y"). eexists. eexists. eexists. exists (L "id"), (L "12"), (L "ab").
  split; [vm_compute; reflexivity|]. split.
  { apply calc_table_ok. vm_compute. reflexivity. }
  split; [apply match_split; vm_compute; reflexivity|]. split; [vm_compute; reflexivity|].
  split. { apply (bool_decide_eq_true _). vm_compute. reflexivity. }
  split.
  { eexists [], _, _. split; [reflexivity|].
    exists (L "12"), [L "12"]. split; [reflexivity|]. split; [|left].
    exists (L "^([0-9]+)$"), (L "12"). split_and!; vm_compute; reflexivity. }
  split; [vm_compute; reflexivity|]. discriminate.
Qed.
Print Assumptions C04_params_value_refuted.

(** What holds for every table: a parameter is the chosen route's own binding
    (null if it has none), or was left behind by a dead-end regexp segment. *)
Theorem C04_params_left_partial :
  forall (H : Type) re_ok re_find (us : list (gostr * list H)) T path,
  adds re_ok us = Ok T ->
  forall tbl e ps,
  routes_of re_ok us tbl ->
  Match re_find (Some T) path = (Some e, ps) ->
  exists r m, tbl !! e_id e = Some r /\ ps = Some m /\
    forall k,
      m !! k = (list_to_map (route_binds re_find 0 r (path_segs path)) : Params) !! k \/
      exists v, m !! k = Some v /\ left_behind re_find tbl (path_segs path) r k v.
Proof. exact params_left. Qed.
Print Assumptions C04_params_left_partial.

(** Without regexp segments in inner positions the parameters are exact.
    Missing for the full claim: tables with inner regexp segments. *)
Theorem C04_params_exact_partial :
  forall (H : Type) re_ok re_find (us : list (gostr * list H)) T path,
  adds re_ok us = Ok T ->
  forall tbl e ps,
  routes_of re_ok us tbl -> no_inner_regexp tbl ->
  Match re_find (Some T) path = (Some e, ps) ->
  exists r m, tbl !! e_id e = Some r /\ ps = Some m /\
    (forall k, is_Some (m !! k) <-> k ∈ route_names 0 r) /\
    (NoDup (route_names 0 r) ->
       forall k v, m !! k = Some v <-> bound_by re_find 0 r (path_segs path) k v).
Proof. exact params_exact. Qed.
Print Assumptions C04_params_exact_partial.
Example C04_case :
  exists us : list (gostr * list nat), exists T tbl e ps r,
    us = [(L "/u/<name>/*rest", [1]); (L "/u/<id ~ ^([0-9]+)$>", [2])] /\
    adds ex_ok us = Ok T /\ routes_of ex_ok us tbl /\ no_inner_regexp tbl /\
    Match ex_find (Some T) (L "/u/bob/x/y") = (Some e, Some ps) /\ tbl !! e_id e = Some r /\
    NoDup (route_names 0 r) /\
    ps !! L "name" = Some (L "bob") /\ ps !! L "rest" = Some (L "x/y").
Proof.
  eexists. do 5 eexists. split; [reflexivity|].
  split; [vm_compute; reflexivity|]. split.
  { apply calc_table_ok. vm_compute. reflexivity. }
  split.
  { match goal with |- no_inner_regexp ?t => let t' := eval vm_compute in t in replace t with t' by (vm_compute; reflexivity) end.
    intros r c p t Hin Hr Ht Hp.
    apply elem_of_cons in Hin as [->|Hin]; [|apply elem_of_cons in Hin as [->|Hin]; [|by apply elem_of_nil in Hin]];
    destruct c as [|? [|? [|? [|? ?]]]]; simpl in Hr; try discriminate Hr; inversion Hr; subst; try discriminate Hp; by apply Ht. }
  split; [apply match_split; vm_compute; reflexivity|]. split; [vm_compute; reflexivity|].
  split. { apply (bool_decide_eq_true _). vm_compute. reflexivity. }
  split; vm_compute; reflexivity.
Qed.

(** C05 is false for catch-alls: the first registered takes /a/b, the last
    registered takes /a/b/c. *)
Theorem C05_catch_all_order_refuted :
  exists (us : list (gostr * list nat)) T,
    (forall re_ok, adds re_ok us = Ok T) /\
    us = [(L "/a/*x", [1]); (L "/a/*y", [2])] /\
    (forall re_find, exists e ps, Match re_find (Some T) (L "/a/b") = (Some e, ps) /\ e_handlers e = [1]) /\
    (forall re_find, exists e ps, Match re_find (Some T) (L "/a/b/c") = (Some e, ps) /\ e_handlers e = [2]).
Proof.
  eexists. eexists. split; [|split; [reflexivity|]].
  - intros re_ok. vm_compute. reflexivity.
  - split; intros re_find; eexists; eexists; (split; [apply match_split; vm_compute; reflexivity|reflexivity]).
Qed.
Print Assumptions C05_catch_all_order_refuted.

(** What holds: of two accepting routes that part at segments of the same kind,
    the one opened first (inner segments) resp. listed first (last segments, one
    path segment left) wins; only for final catch-alls taking several segments
    the last one listed wins. *)
Theorem C05_same_kind_order_partial :
  forall (H : Type) re_ok re_find (us : list (gostr * list H)) T path,
  adds re_ok us = Ok T ->
  forall tbl e ps c p1 t1 p2 t2,
  routes_of re_ok us tbl ->
  Match re_find (Some T) path = (Some e, ps) ->
  tbl !! e_id e = Some (c ++ p1 :: t1) ->
  c ++ p2 :: t2 ∈ tbl -> route_accepts re_find (c ++ p2 :: t2) (path_segs path) ->
  p1 <> p2 -> p_typ p1 = p_typ p2 ->
  (t1 <> [] -> t2 <> [] -> opened_before tbl (c ++ [p1]) (c ++ [p2])) /\
  (t1 = [] -> t2 = [] -> length c + 1 = length (path_segs path) ->
     listed_before tbl (c ++ [p1]) (c ++ [p2])) /\
  (t1 = [] -> t2 = [] -> length c + 1 <> length (path_segs path) ->
     p_typ p1 = PMatchAll /\ listed_before tbl (c ++ [p2]) (c ++ [p1])).
Proof. exact same_kind_order. Qed.
Print Assumptions C05_same_kind_order_partial.
Example C05_case :
  exists T e ps,
    adds ex_ok [(L "/<a>", [1]); (L "/<b>", [2])] = Ok T /\
    Match ex_find (Some T) (L "/q") = (Some e, ps) /\ e_handlers e = [1].
Proof. do 3 eexists. split; [vm_compute; reflexivity|]. split; [apply match_split; vm_compute; reflexivity|reflexivity]. Qed.

(** C06 *)
Theorem C06_slash_insensitive :
  forall (H : Type) re_find (T : option (node H)) p,
  (forall r, p <> "/"%char :: r) -> (forall r, p <> r ++ ["/"%char]) ->
  Match re_find T (["/"%char] ++ p) = Match re_find T p /\
  Match re_find T (p ++ ["/"%char]) = Match re_find T p /\
  Match re_find T (["/"%char] ++ p ++ ["/"%char]) = Match re_find T p.
Proof. exact slash_insensitive. Qed.
Print Assumptions C06_slash_insensitive.
Example C06_case :
  (forall r, L "a/b" <> "/"%char :: r) /\ (forall r, L "a/b" <> r ++ ["/"%char]).
Proof.
  split; [discriminate|]. intros r Hr. apply (f_equal (@rev ascii)) in Hr. rewrite rev_app_distr in Hr. discriminate.
Qed.

(** C48 is false: an expression without groups is accepted and can never match. *)
Theorem C48_regexp_refuted :
  exists s p, (forall re_ok, re_ok (L "70|80") = true -> analyzePattern re_ok s = Ok p) /\
    s = L "<id ~ 70|80>" /\ p_typ p = PRegexp /\ p_reg p = Some (L "70|80") /\
    (forall re_find, engine_counts re_find (L "70|80") -> forall x, ~ seg_accepts re_find p x).
Proof.
  exists (L "<id ~ 70|80>"), (mkPat PRegexp (L "<id ~ 70|80>") (L "id") [L "id"] (Some (L "70|80"))).
  assert (forall re_ok, re_ok (L "70|80") = true ->
    analyzePattern re_ok (L "<id ~ 70|80>") =
    Ok (mkPat PRegexp (L "<id ~ 70|80>") (L "id") [L "id"] (Some (L "70|80")))) as Ha.
  { intros re_ok Hr. vm_compute in Hr |- *. by rewrite Hr. }
  split_and!; [exact Ha|done|done|done|]. intros re_find Hc.
  apply (groupless_never_matches (fun _ => true) re_find (L "<id ~ 70|80>") _ (L "70|80"));
    [by apply Ha|done|done|exact Hc|].
  intros Hin. vm_compute in Hin.
  repeat (apply elem_of_cons in Hin as [Hin|Hin]; [discriminate|]). by apply elem_of_nil in Hin.
Qed.
Print Assumptions C48_regexp_refuted.

(** In general: without "(" an accepted regexp segment never matches ... *)
Theorem C48_groupless_never_matches_partial :
  forall re_ok re_find s p reg,
  analyzePattern re_ok s = Ok p -> p_typ p = PRegexp -> p_reg p = Some reg ->
  engine_counts re_find reg -> "("%char ∉ s ->
  forall x, ~ seg_accepts re_find p x.
Proof. exact groupless_never_matches. Qed.
Print Assumptions C48_groupless_never_matches_partial.

(** ... and with parentheses it accepts exactly the segments the engine matches,
    for expressions whose number of groups is their number of "(". *)
Theorem C48_grouped_can_match_partial :
  forall re_ok re_find s p reg,
  analyzePattern re_ok s = Ok p -> p_typ p = PRegexp -> p_reg p = Some reg ->
  engine_counts re_find reg -> ("("%char ∈ s \/ ")"%char ∈ s) ->
  forall x, is_Some (re_find reg x) <-> seg_accepts re_find p x.
Proof. exact grouped_can_match. Qed.
Print Assumptions C48_grouped_can_match_partial.
Example C48_case :
  exists p, analyzePattern ex_ok (L "<n ~ ^([0-9]+)$>") = Ok p /\ p_typ p = PRegexp /\
    p_reg p = Some (L "^([0-9]+)$") /\ engine_counts ex_find (L "^([0-9]+)$") /\
    "("%char ∈ L "<n ~ ^([0-9]+)$>".
Proof.
  eexists. split; [vm_compute; reflexivity|]. split; [done|]. split; [done|]. split.
  - intros x gs. unfold ex_find. rewrite seqb_refl. destruct (all_of is_digit x); [|discriminate].
    intros Hg. inversion Hg; subst. done.
  - vm_compute. do 6 right. left.
Qed.

(** C49.  The grammar of segments: analysis succeeds exactly on the segments of
    the grammar, with the meaning given there. *)
Theorem C49_pattern_grammar :
  forall re_ok s p, analyzePattern re_ok s = Ok p <-> seg_grammar re_ok s p.
Proof. exact analyze_grammar. Qed.
Print Assumptions C49_pattern_grammar.
Example C49_case :
  seg_grammar ex_ok (L "<n ~ ^([0-9]+)$>")
    (mkPat PRegexp (L "<n ~ ^([0-9]+)$>") (L "n") [L "n"] (Some (L "^([0-9]+)$"))).
Proof. apply C49_pattern_grammar. vm_compute. reflexivity. Qed.

(** A list of routes can be added exactly when all its segments are legal. *)
Theorem C49_adds_iff :
  forall (H : Type) re_ok (us : list (gostr * list H)),
  (exists tbl, routes_of re_ok us tbl) <-> (exists T, adds re_ok us = Ok T).
Proof.
  exact (fun H re_ok us => conj
    (fun '(ex_intro _ tbl Hr) => adds_ok re_ok us tbl Hr)
    (fun '(ex_intro _ T Ha) => routes_exist H re_ok (fun _ _ => None) us T Ha)).
Qed.
Print Assumptions C49_adds_iff.
