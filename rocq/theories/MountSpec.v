(** Specification of mounting an engine in another: which logs are those of handlers
    whose response does not depend on the layer in between. *)
From Verif Require Import Base GoStr Strconv Tree Header Router Ctx TraceSpec.
Local Open Scope Z_scope.

Section Spec.
Context {V : Type}.
(** the status is sent before any data, and no second one after one that net/http
    refuses *)
Definition in_order (l : list (event V)) (ev : event V) : Prop :=
  match ev with
  | EvData _ => sends l <> []
  | EvSend _ => match sends l with [] => True | n :: _ => proper_code n = true end
  | _ => True
  end.
(** connections that differ in their log only *)
Definition alike (c c' : conn V) : Prop :=
  cn_req c = cn_req c' /\ cn_rw c = cn_rw c' /\ cn_body c = cn_body c' /\ cn_form c = cn_form c'.
End Spec.
