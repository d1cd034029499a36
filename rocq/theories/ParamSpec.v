(** Which route of an engine a request is for, and its parameters. *)
From Verif Require Import Base GoStr Strconv Pattern Tree TreeSpec LastingSpec Header Router Ctx Engine TraceSpec EngineSpec.

Section Spec.
Context {A : Type}.
Variable re_ok : gostr -> bool.
Variable re_find : gostr -> gostr -> option (list gostr).

(** the routes of a method in order of registration, and their patterns *)
Definition method_routes (e : engine A) (m : gostr) : list (route A) :=
  List.filter (fun v => seqb (rt_method v) m) (routes e).
Definition method_table (e : engine A) (m : gostr) (tbl : list (list pat)) : Prop :=
  Forall2 (fun v p => uri_route re_ok (rt_variant v) p) (method_routes e m) tbl.

(** v is the first route of the method with the pattern p *)
Definition first_with (e : engine A) (m : gostr) (tbl : list (list pat)) (p : list pat) (v : route A) : Prop :=
  exists j, method_routes e m !! j = Some v /\ tbl !! j = Some p /\ forall i, i < j -> tbl !! i <> Some p.

(** p accepts the path, and has priority over all others that do *)
Definition chosen (tbl : list (list pat)) (ss : list gostr) (p : list pat) : Prop :=
  p ∈ tbl /\ route_accepts re_find p ss /\
  forall q, q ∈ tbl -> route_accepts re_find q ss -> q <> p -> beats tbl (length ss) p q /\ ~ beats tbl (length ss) q p.

(** ** Routes that are never reached *)

(** p accepts some path of n segments; q accepts every such path that p accepts *)
Definition takes (n : nat) (p : list pat) : Prop := exists ss, length ss = n /\ route_accepts re_find p ss.
Definition covers (n : nat) (p q : list pat) : Prop :=
  forall ss, length ss = n -> route_accepts re_find p ss -> route_accepts re_find q ss.
(** for paths of n segments another route accepts all that p accepts, and goes before it *)
Definition overshadowed (tbl : list (list pat)) (n : nat) (p : list pat) : Prop :=
  exists q, q ∈ tbl /\ q <> p /\ covers n p q /\ beats tbl n q p.
Definition no_regexp (tbl : list (list pat)) : Prop := forall r p, r ∈ tbl -> p ∈ r -> p_typ p <> PRegexp.

(** the parameters are the bindings of p or left over from dead ends; those that p
    does not bind by an inner regexp segment are its bindings; exactly the bindings
    of p in tables without inner regexp segments *)
Record bindings (tbl : list (list pat)) (ss : list gostr) (p : list pat) (m : Params) : Prop := {
  bn_origin : forall k, m !! k = (list_to_map (route_binds re_find 0 p ss) : Params) !! k \/
     exists v, m !! k = Some v /\ left_behind re_find tbl ss p k v;
  bn_lasting : forall k, k ∈ lasting_names 0 p ->
     exists v, m !! k = Some v /\ (list_to_map (route_binds re_find 0 p ss) : Params) !! k = Some v;
  bn_names : no_inner_regexp tbl -> forall k, is_Some (m !! k) <-> k ∈ route_names 0 p;
  bn_exact : no_inner_regexp tbl -> NoDup (route_names 0 p) ->
     forall k v, m !! k = Some v <-> bound_by re_find 0 p ss k v }.
End Spec.
