(** Specification of serving a request: which requests are refused, which route
    a request is for, and what a handler's log looks like. *)
From Verif Require Import Base GoStr Strconv Pattern Tree TreeSpec Header Router Ctx Engine TraceSpec.
Local Open Scope Z_scope.

(** statuses that RFC 7230 gives no body *)
Definition bodiless (n : Z) : Prop := 100 <= n <= 199 \/ n = 204 \/ n = 304.

Section Spec.
Context {A V : Type}.
Variable re_ok : gostr -> bool.
Variable re_find : gostr -> gostr -> option (list gostr).

(** ** Refusals *)
Definition old_protocol (r : request) : Prop :=
  (rq_major r = 0 \/ (rq_major r = 1 /\ rq_minor r = 0))%nat.
Definition unacceptable (r : request) : Prop :=
  old_protocol r \/ rq_uri r = L "*" \/ rq_method r = L "CONNECT".
Definition seven_methods : list gostr :=
  [L "GET"; L "POST"; L "DELETE"; L "PUT"; L "PATCH"; L "HEAD"; L "OPTIONS"].
Inductive refused (r : request) : Z -> Prop :=
  | refused_406 : unacceptable r -> refused r 406
  | refused_405 : ~ unacceptable r -> rq_method r ∉ seven_methods -> refused r 405.

(** ** Routes and requests *)

(** an engine that registration calls and Handler() give *)
Definition engine_of (ops : list (rop A)) (r : nat) (opts : list (opt A)) (e : engine A) : Prop :=
  exists hp mem mem', run_ops ops [] = Ok hp /\ Handler re_ok hp r opts mem = (Ok e, mem').
(** its routes *)
Definition routes (e : engine A) : list (route A) := rs_slice (en_store e).

(** route v has the method of the request, and its pattern accepts the path *)
Definition fits (v : route A) (req : request) : Prop :=
  rt_method v = rq_method req /\
  exists r, uri_route re_ok (rt_variant v) r /\ route_accepts re_find r (path_segs (rq_path req)).
(** two routes whose patterns are the same segment for segment *)
Definition same_pattern (v w : route A) : Prop :=
  rt_method v = rt_method w /\
  exists r, uri_route re_ok (rt_variant v) r /\ uri_route re_ok (rt_variant w) r.
(** v comes before (after) all other routes with the same pattern *)
Definition first_of (e : engine A) (v : route A) : Prop :=
  forall k w, routes e !! k = Some w -> same_pattern v w -> exists j, (j <= k)%nat /\ routes e !! j = Some v.
Definition last_of (e : engine A) (v : route A) : Prop :=
  forall k w, routes e !! k = Some w -> same_pattern v w -> exists j, (k <= j)%nat /\ routes e !! j = Some v.
(** a route without variable segments *)
Definition literal (v : route A) : Prop :=
  exists r, uri_route re_ok (rt_variant v) r /\ Forall (fun p => p_typ p = PStatic) r.
(** with the static router: the path is, byte by byte, the URI of a route
    without variable segments *)
Definition verbatim (e : engine A) (v : route A) (req : request) : Prop :=
  o_static (en_options e) = true /\ rt_method v = rq_method req /\ rt_variant v = rq_path req /\ literal v.

(** hs are the handlers for the request: those of a route for it, or the
    not-found handlers *)
Inductive dispatched (e : engine A) (req : request) : list (handler A) -> Prop :=
  | dis_route v : v ∈ routes e -> rt_method v = rq_method req ->
      (fits v req \/ exists u, u ∈ routes e /\ verbatim e u req /\ same_pattern u v) ->
      dispatched e req (rt_handlers v)
  | dis_nofound : (forall v, v ∈ routes e -> ~ fits v req /\ ~ verbatim e v req) ->
      o_nofound (en_options e) <> [] -> dispatched e req (o_nofound (en_options e)).

(** ** Logs *)

(** a response with nothing but a status *)
Definition bare (r : request) (body : rbody) (n : Z) : conn V :=
  mkConn r (mkRw ∅ (Some (n, ∅)) []) body None [EvSend n].

Definition on_wire (ev : event V) : Prop := match ev with EvSend _ | EvData _ => True | _ => False end.

(** [did p l en]: running program p can leave the log l and end like that,
    whatever the operations answer.  [turns hs l en]: the log of handlers of the
    chain hs called one after the other (any of them). *)
Inductive did (code : handler A -> prog V) (hs : list (handler A)) : prog V -> list (event V) -> ending -> Prop :=
  | did_ret : did code hs PRet [] EDone
  | did_panic v : did code hs (PPanic v) [] (EThrow v)
  | did_op o k w a l en : Forall on_wire w -> did code hs (k a) l en ->
      did code hs (PDo o k) (w ++ EvCall o (Norm a) :: l) en
  | did_op_panic o k w v : Forall on_wire w -> did code hs (PDo o k) (w ++ [EvCall o (Throw v)]) (EThrow v)
  | did_next k l1 l2 en : turns code hs l1 EDone -> did code hs k l2 en ->
      did code hs (PNext k) (EvNext :: l1 ++ l2) en
  | did_next_panic k l v : turns code hs l (EThrow v) -> did code hs (PNext k) (EvNext :: l) (EThrow v)
  | did_try b k l1 l2 en : did code hs b l1 EDone -> did code hs (k None) l2 en ->
      did code hs (PTry b k) (l1 ++ l2) en
  | did_try_panic b k l1 v l2 en : did code hs b l1 (EThrow v) -> did code hs (k (Some v)) l2 en ->
      did code hs (PTry b k) (l1 ++ l2) en
with turns (code : handler A -> prog V) (hs : list (handler A)) : list (event V) -> ending -> Prop :=
  | turns_none : turns code hs [] EDone
  | turns_one i h l1 l2 en : hs !! i = Some h -> did code hs (code h) l1 EDone -> turns code hs l2 en ->
      turns code hs (EvStart i :: l1 ++ EvEnd i :: l2) en
  | turns_panic i h l v : hs !! i = Some h -> did code hs (code h) l (EThrow v) ->
      turns code hs (EvStart i :: l) (EThrow v).

(** when a handler is started, the ones before it have been, unless there has
    been a response *)
Definition no_gap (l : list (event V)) (ev : event V) : Prop :=
  match ev with EvStart i => ~ responded l -> starts l = seq 0 i | _ => True end.

End Spec.
