(** What calling a handler, and parsing a form, should be. *)
From Verif Require Import Base GoStr Header Router Ctx TraceSpec Engine EngineSpec.

(** what follows the start of handler i of a chain *)
Definition invoked {A V} (water_code : A -> prog V) (http_code : A -> request -> prog V) (r : request)
    (hs : list (handler A)) (i : nat) (l : list (event V)) : Prop :=
  exists h l3 en l4, hs !! i = Some h /\ (en = EDone -> exists l5, l4 = EvEnd i :: l5) /\
    match h with
    | HHandler a | HFuncCtx a => l = l3 ++ l4 /\ did (invoke water_code http_code) hs (water_code a) l3 en
    | HHttp a | HHttpFunc a => exists w, Forall on_wire w /\ l = w ++ EvCall ORequest (Norm r) :: l3 ++ l4 /\
        did (invoke water_code http_code) hs (http_code a r) l3 en
    end.

(** the requests whose body is to be parsed as multipart *)
Definition multipart_request (r : request) : Prop :=
  rq_method r ∈ [L "POST"; L "PUT"; L "PATCH"] /\
  exists a b, h_get (rq_header r) (L "Content-Type") = a ++ L "multipart/form-data" ++ b.
