(** Properties of registration that goes on after a recovered panic. *)
From Verif Require Import Base GoStr Strconv Pattern Tree TreeSpec Router RouterTry RouterTryFacts Engine EngineSpec ExampleRegexp ExampleRouter ExampleServe.

(** ** C86 *)
(** A call other than Group that panics leaves all routers as they were, also when it
    is to add several routes. *)
Theorem C86_refused_calls :
  forall (A : Type) (t : top A) o hp msg hp', call_of t = Some o -> texec t hp = (hp', Some msg) -> hp' = hp.
Proof. exact @refused_call. Qed.
Print Assumptions C86_refused_calls.
Example C86_refused_case : let hp := (trun [TNew; TGroup 0 (L "/g") []] []).1 : heap nat in
  texec (TAny 1 MethodAnyExclude (L "/x") [IFuncCtx 1; INil]) hp = (hp, Some (L "handler err : find nil in handlers")) /\
  texec (TBefore 1 [IFuncCtx 1]) hp = (hp, Some (L "sub router not allowed: Before()")).
Proof. by vm_compute. Qed.

(** Group does not: refused for an argument of a wrong type, it leaves the group
    behind, and Handler() then panics although it would have succeeded before. *)
Theorem C86_group_refuted :
  exists (t : top nat) hp hp' msg e m, run_ops [RNew; RHandle 0 0 (L "/x") [IFuncCtx 1]] [] = Ok hp /\
    texec t hp = (hp', Some msg) /\ fst (Handler ex_ok hp 0 [] 0%Z) = Ok e /\ fst (Handler ex_ok hp' 0 [] 0%Z) = Panic m.
Proof.
  exists (TGroup 0 (L "/g") [TOther]). eexists _, _, _, _, _. split; [vm_compute; reflexivity|].
  split; [vm_compute; reflexivity|]. split; vm_compute; reflexivity.
Qed.
Print Assumptions C86_group_refuted.

(** What registration with recovered panics amounts to, in general: the calls that
    were not refused, a refused Group with the arguments before the refused one.  So
    every theorem on engines holds for it. *)
Theorem C86_amounts_partial :
  forall (A : Type) (ts : list (top A)) hp hp' o, trun ts hp = (hp', o) ->
  exists l, took_list ts hp l (match o with None => true | _ => false end) hp' /\ run_ops l hp = Ok hp'.
Proof. exact @recovered. Qed.
Print Assumptions C86_amounts_partial.
Theorem C86_engine_partial :
  forall (A : Type) re_ok (ts : list (top A)) hp' o r opts e mem mem',
  trun ts [] = (hp', o) -> Handler re_ok hp' r opts mem = (Ok e, mem') ->
  exists l, took_list ts [] l (match o with None => true | _ => false end) hp' /\ engine_of re_ok l r opts e.
Proof. exact @recovered_engine. Qed.
Print Assumptions C86_engine_partial.
(** a nested panic: of the group's function the calls before the panic count, and of
    the last call nothing *)
Definition yx_ts : list (top nat) :=
  [TNew; TTry (TBefore 1 []); TTry (TGroup 0 (L "/g") [TMw 7; TSub [TTry (TBefore 1 [IFuncCtx 8]); THandle 1 0 (L "/in") [IFuncCtx 1]; THandle 1 0 (L "/no") [INil]; TUse 1 [IFuncCtx 9]]; TMw 5]);
   THandle 0 0 (L "/out") [IFuncCtx 2]].
Example C86_amounts_case :
  exists hp, trun yx_ts [] = (hp, None) /\ run_ops [RNew; RGroup 0 (L "/g") [GMw 7; GSub [RHandle 1 0 (L "/in") [IFuncCtx 1]]];
    RHandle 0 0 (L "/out") [IFuncCtx 2]] [] = Ok hp /\ is_ok (fst (Handler ex_ok hp 0 [] 0%Z)).
Proof. eexists. split; [vm_compute; reflexivity|]. split; [vm_compute; reflexivity|]. eexists. vm_compute. reflexivity. Qed.
(** without recovered panics it is the registration of the other theorems *)
Theorem C86_ordinary :
  forall (A : Type) (ops : list (rop A)) hp hp', run_ops ops hp = Ok hp' -> trun (map embed ops) hp = (hp', None).
Proof. exact @ordinary. Qed.
Print Assumptions C86_ordinary.
