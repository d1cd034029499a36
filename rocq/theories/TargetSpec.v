(** Request targets (RFC 7230, section 5.3): a path of segments, each of which may
    spell its text with percent escapes, and a query. *)
From Coq Require Import ZArith NArith.
From Verif Require Import Base GoStr Tree Header Router Ctx UtilSpec StaticSpec RedirectSpec.

(** [spells t v]: the text t of a segment stands for v *)
Definition spells (t v : gostr) : Prop :=
  "/"%char ∉ t /\ "?"%char ∉ t /\ no_control t /\ pct_decode t = Some v.
(** origin-form, or absolute-form with a host that the server accepts *)
Inductive target_front (parseAuthority : gostr -> option gostr) : gostr -> Prop :=
  | front_none : target_front parseAuthority []
  | front_host s a : scheme s -> "/"%char ∉ a -> "?"%char ∉ a -> no_control a -> parseAuthority a <> None ->
      target_front parseAuthority (s ++ L "://" ++ a).
(** the target uri asks for the segments vs *)
Definition asks_for parseAuthority (uri : gostr) (vs : list gostr) : Prop :=
  exists front ts q, target_front parseAuthority front /\ ts <> [] /\ uri = front ++ slashed ts ++ lead "?" q /\
    no_control (lead "?" q) /\ Forall2 spells ts vs.
(** ... but with a malformed escape *)
Definition asks_badly parseAuthority (uri : gostr) : Prop :=
  exists front p q, target_front parseAuthority front /\ uri = front ++ "/"%char :: p ++ lead "?" q /\
    "?"%char ∉ p /\ no_control p /\ no_control (lead "?" q) /\ pct_decode p = None.
