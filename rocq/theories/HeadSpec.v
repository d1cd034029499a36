(** Handlers that do not look at the method of the request. *)
From Verif Require Import Base GoStr Header Router Ctx.

(** the same request with another method *)
Definition with_method (m : gostr) (r : request) : request :=
  mkReq m (rq_major r) (rq_minor r) (rq_uri r) (rq_path r) (rq_header r) (rq_remote r) (rq_tls r).

(** what a handler does with a request does not depend on its method *)
Definition overlooks {V} (o : op V) (k : ans o -> prog V) : Prop :=
  match o as o' return (ans o' -> prog V) -> Prop with
  | ORequest => fun k => forall m r, k (with_method m r) = k r
  | _ => fun _ => True
  end k.
Fixpoint method_blind {V} (p : prog V) : Prop :=
  match p with
  | PRet => True
  | PPanic _ => True
  | PDo o k => overlooks o k /\ forall a, method_blind (k a)
  | PNext k => method_blind k
  | PTry b k => method_blind b /\ forall e, method_blind (k e)
  end.
