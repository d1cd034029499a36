(** The one chain of handlers that a request is for. *)
From Verif Require Import Base GoStr Strconv Pattern Tree TreeSpec Header Router Ctx Engine TraceSpec EngineSpec ParamSpec.

Section Spec.
Context {A : Type}.
Variable re_ok : gostr -> bool.
Variable re_find : gostr -> gostr -> option (list gostr).

Inductive picked (e : engine A) (req : request) : list (handler A) -> Prop :=
  (** no static router, or nothing for it: the route that has priority; of the
      routes with this pattern the first one *)
  | pk_route v p tbl : (forall u, u ∈ routes e -> ~ verbatim re_ok e u req) ->
      method_table re_ok e (rq_method req) tbl -> chosen re_find tbl (path_segs (rq_path req)) p ->
      first_with e (rq_method req) tbl p v -> picked e req (rt_handlers v)
  (** the path is spelled like a literal route: the first route with its pattern *)
  | pk_verbatim u v : u ∈ routes e -> verbatim re_ok e u req -> v ∈ routes e -> same_pattern re_ok u v -> first_of re_ok e v ->
      picked e req (rt_handlers v)
  (** nothing fits *)
  | pk_nofound : (forall v, v ∈ routes e -> ~ fits re_ok re_find v req /\ ~ verbatim re_ok e v req) ->
      o_nofound (en_options e) <> [] -> picked e req (o_nofound (en_options e)).
End Spec.
