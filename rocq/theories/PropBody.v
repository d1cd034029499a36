(** Properties of request bodies that fail or were closed. *)
From Verif Require Import Base GoStr GoStrFacts Strconv Util Pattern Tree TreeSpec Header Router RouterSpec Ctx CtxFacts TraceSpec
  Engine EngineSpec ServeTop ServeThms Content ContentFacts BodySpec RequestSpec RequestFacts BodyFacts BodyTop
  ExampleRegexp ExampleRouter ExampleServe PropMiddleware.
Local Open Scope Z_scope.

(** ** C97: incomplete bodies, and bodies read twice *)
(** A body that breaks off is never taken for a complete one: whatever ran before,
    as long as no handler replaced the body, reading it to the end gives an error. *)
Theorem C97_broken :
  forall (A V : Type) re_find sniff parse_form (code : handler A -> prog V) (e : engine A) id x r body en px c' l1 a l2,
  ServeHTTP re_find sniff parse_form code e id x (arrive r body) = (en, px, c') -> ends_well (bd_feed body) = false ->
  cn_log c' = l1 ++ EvCall OBodyReadAll a :: l2 -> Forall (fun ev => ~ replaces ev) l1 -> exists d, a = Norm (d, false).
Proof. exact @serve_broken. Qed.
Print Assumptions C97_broken.
(** Once a handler closed a body that came over the wire, reading it fails and
    gives no byte. *)
Theorem C97_closed :
  forall (A V : Type) re_find sniff parse_form (code : handler A -> prog V) (e : engine A) id x r body en px c' l1 o l2 a l3,
  ServeHTTP re_find sniff parse_form code e id x (arrive r body) = (en, px, c') -> bd_feed body <> FMem ->
  cn_log c' = l1 ++ EvCall OBodyClose o :: l2 ++ EvCall OBodyReadAll a :: l3 ->
  Forall (fun ev => ~ replaces ev) (l1 ++ l2) -> Forall (fun ev => ~ parses ev) l2 -> a = Norm ([], false).
Proof. exact @serve_closed. Qed.
Print Assumptions C97_closed.
(** BodyBytes: all that is left of the body, or an error and nothing if it does not
    come to its end; afterwards nothing is left. *)
Theorem C97_bodybytes :
  forall (A V : Type) sniff parse_form next k (x : ctxobj A V) (c : conn V), exists c',
  pexec sniff parse_form next (BodyBytes k) x c =
    pexec sniff parse_form next (k (if ends_well (bd_feed (cn_body c)) then Some (bd_data (cn_body c)) else None)) x c' /\
  cn_req c' = cn_req c /\ cn_rw c' = cn_rw c /\ cn_form c' = cn_form c /\
  bd_data (cn_body c') = [] /\
  bd_feed (cn_body c') = match bd_feed (cn_body c) with FWire => FClosed | how => how end.
Proof. exact @bodybytes. Qed.
Print Assumptions C97_bodybytes.
(** The second of two calls of BodyBytes gives an error, and never the body of the
    first one; only if the body was in memory it gives an empty one. *)
Theorem C97_twice :
  forall (A V : Type) sniff parse_form next k (x : ctxobj A V) (c : conn V), exists c',
  pexec sniff parse_form next (BodyBytes (fun a => BodyBytes (k a))) x c =
    pexec sniff parse_form next
      (k (if ends_well (bd_feed (cn_body c)) then Some (bd_data (cn_body c)) else None)
         (match bd_feed (cn_body c) with FMem => Some [] | _ => None end)) x c' /\
  cn_req c' = cn_req c /\ cn_rw c' = cn_rw c /\ cn_form c' = cn_form c.
Proof. exact @bodybytes_twice. Qed.
Print Assumptions C97_twice.
(** the hypotheses are met: a handler that calls BodyBytes twice *)
Example C97_case : exists e, engine_of ex_ok (mx_ops [15%nat]) 0 [] e /\
  (exists en px c' l1 o a l3, mx_run e cut_req (L "[1]") = (en, px, c') /\
    cn_log c' = l1 ++ EvCall OBodyClose o :: [] ++ EvCall OBodyReadAll a :: l3 /\ Forall (fun ev => ~ replaces ev) (l1 ++ []) /\ l3 <> []) /\
  cut_read e cut_req (mkBody (L "[1") FBroken) =
    [EvCall OBodyReadAll (Norm (L "[1", false)); EvCall OBodyReadAll (Norm ([], false))].
Proof.
  edestruct (with_engine_split ex_ok (mx_ops [15%nat]) [] (fun e =>
    (let '(_, _, c') := mx_run e cut_req (L "[1]") in cn_log c', cut_read e cut_req (mkBody (L "[1") FBroken)))) as (e & He & Hs);
    [vm_compute; reflexivity|].
  apply pair_equal_spec in Hs as [H1 H2]. exists e. split; [exact He|]. split; [|exact H2].
  destruct (ServeHTTP _ _ _ _ _ _ _ _) as [[en px] c'] eqn:H. exists en, px, c'.
  exists [EvStart 0; EvCall OBodyReadAll (Norm (L "[1]", true))], (Norm tt), (Norm ([], false)). eexists.
  split; [done|]. split; [exact H1|]. split; [by repeat constructor; intros []|done].
Qed.
