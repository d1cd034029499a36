(** Properties of registration with slices in memory. *)
From Verif Require Import Base GoStr Strconv Pattern Tree Router RouterTry RouterTryFacts Slices SliceSpec SliceMem SliceFacts SliceSim SliceHandler SliceActs.

(** ** Examples *)

(** append doubles the capacity *)
Definition zx_spare (c n : nat) : nat := c + c - n.
Definition zx_re (_ : gostr) : bool := true.
Definition zx_sl (arr off len cap : nat) : slice := mkSl arr off len cap.
(** the chains of the routes of an engine *)
Definition zx_chains (e : res (engine nat)) : res (list (gostr * list (handler nat))) :=
  let! e := e in Ok (map (fun rt => (rt_uri rt, rt_handlers rt)) (rs_slice (en_store e))).

(** One array for everything: middleware and handlers are overlapping slices of it,
    and the client goes on writing to cells that are not handlers of a route. *)
Definition zx_shared : list (sact nat) :=
  [ADo (SMake [IFuncCtx 1; IFuncCtx 2; IFuncCtx 3]);
   ADo SNew;
   ADo (SUse 0 (zx_sl 0 0 2 3));
   ADo (SGroup 0 (L "/a") [SMw 7; SSub [SUse 1 (zx_sl 0 1 1 2); SHandle 1 0 (L "/x") (zx_sl 0 2 1 1)]]);
   ADo (SPut 0 0 (IFuncCtx 9));
   ADo (SUse 1 (zx_sl 0 0 1 3));
   AHandler 0 [];
   ADo (SHandle 0 1 (L "/y") (zx_sl 0 2 1 1))].
Example zx_shared_ok :
  let st := acts zx_spare zx_shared st_empty in
  st_hit st = false /\
  zx_chains (let! (st', e) := sHandler zx_spare st 0 [] in engine_at zx_re st' e) =
    Ok [(L "/a/x", [HFuncCtx 1; HFuncCtx 2; HFuncCtx 7; HFuncCtx 2; HFuncCtx 9; HFuncCtx 3]);
        (L "/y", [HFuncCtx 1; HFuncCtx 2; HFuncCtx 7; HFuncCtx 3])].
Proof. split; vm_compute; reflexivity. Qed.

(** A write to a handler of a route: before Handler() it counts, after it does not. *)
Definition zx_late : list (sact nat) :=
  [ADo (SMake [IFuncCtx 1]); ADo SNew; ADo (SHandle 0 0 (L "/x") (zx_sl 0 0 1 1)); ADo (SPut 0 0 (IFuncCtx 2))].
Example zx_late_ok :
  let st := acts zx_spare zx_late st_empty in
  st_hit st = true /\
  zx_chains (let! (st', e) := sHandler zx_spare st 0 [] in engine_at zx_re st' e) = Ok [(L "/x", [HFuncCtx 2])] /\
  zx_chains (let! (st', e) := sHandler zx_spare st 0 [] in engine_at zx_re (act zx_spare st' (ADo (SPut 0 0 (IFuncCtx 3)))) e) =
    Ok [(L "/x", [HFuncCtx 2])].
Proof. split; [|split]; vm_compute; reflexivity. Qed.
(** and may be one that registration would have refused *)
Definition zx_nil : list (sact nat) :=
  [ADo (SMake [IFuncCtx 1]); ADo SNew; ADo (SHandle 0 0 (L "/x") (zx_sl 0 0 1 1)); ADo (SPut 0 0 INil)].
Example zx_nil_ok :
  let st := acts zx_spare zx_nil st_empty in sHandler zx_spare st 0 [] = Panic (L "unsupported handler").
Proof. vm_compute. reflexivity. Qed.

(** ** C92 *)

(** What Handler() returns holds what the routers hold at that moment, ... *)
Theorem C92_engine_made {A} (spare : nat -> nat -> nat) (re_ok : gostr -> bool) (l : list (sact A)) (r : nat) (opts : list sopt) (z : Z) :
  let st := acts spare l st_empty in
  forallb (opt_okb st) opts = true ->
  (let! (st', e) := sHandler spare st r opts in engine_at re_ok st' e) =
  (Handler re_ok (abs st) r (map (abs_opt st) opts) z).1.
Proof. apply made. Qed.
Print Assumptions C92_engine_made.

(** ... and goes on to hold it whatever the client does next. *)
Theorem C92_engine_snapshot {A} (spare : nat -> nat -> nat) (re_ok : gostr -> bool) (l l' : list (sact A)) (r : nat) (opts : list sopt)
    (st' : sstate A) (e : sengine) :
  let st := acts spare l st_empty in
  forallb (opt_okb st) opts = true -> sHandler spare st r opts = Ok (st', e) ->
  engine_at re_ok (acts spare l' st') e = engine_at re_ok st' e.
Proof. apply engine_snapshot. Qed.
Print Assumptions C92_engine_snapshot.
Example C92_inhabited : let st := acts zx_spare zx_shared st_empty in
  forallb (opt_okb st) [SWithNoFoundHandlers (zx_sl 0 1 2 2)] = true /\
  match sHandler zx_spare st 0 [SWithNoFoundHandlers (zx_sl 0 1 2 2)] with
  | Ok (st', e) => match engine_at zx_re st' e with Ok en => o_nofound (en_options en) = [HFuncCtx 2; HFuncCtx 3] | _ => False end
  | _ => False
  end.
Proof. split; vm_compute; reflexivity. Qed.

(** ** C93 *)

(** false: the handlers of a route can be replaced until Handler() is called *)
Theorem C93_handlers_at_the_call_refuted : exists (spare : nat -> nat -> nat) (l : list (sact nat)),
  let st := acts spare l st_empty in
  (let! (st', e) := sHandler spare st 0 [] in engine_at zx_re st' e) <>
  (Handler zx_re (trun (calls spare l st_empty) []).1 0 [] 0%Z).1.
Proof.
  exists zx_spare, zx_late. intros st H. apply (f_equal zx_chains) in H. revert H. vm_compute. discriminate.
Qed.
Print Assumptions C93_handlers_at_the_call_refuted.

(** true if the client does not write to a handler of a route it registered: the
    engine is the one of the calls with the values at the time of each call, however
    the slices overlap and whatever capacity append leaves *)
Theorem C93_handlers_at_the_call_partial {A} (spare : nat -> nat -> nat) (re_ok : gostr -> bool) (l : list (sact A)) (r : nat)
    (opts : list sopt) (z : Z) :
  let st := acts spare l st_empty in
  forallb (opt_okb st) opts = true -> st_hit st = false ->
  (let! (st', e) := sHandler spare st r opts in engine_at re_ok st' e) =
  (Handler re_ok (trun (calls spare l st_empty) []).1 r (map (abs_opt st) opts) z).1.
Proof. apply made_of_calls. Qed.
Print Assumptions C93_handlers_at_the_call_partial.

(** this holds if it does not write at all *)
Theorem C93_no_writes_partial {A} (spare : nat -> nat -> nat) (l : list (sact A)) :
  (forall arr i, existsb (act_writes arr i) l = false) -> st_hit (acts spare l st_empty) = false.
Proof. intros H. apply (acts_quiet spare l H st_empty inv_empty). Qed.
Print Assumptions C93_no_writes_partial.

(** middleware is always what it was at the call, and so is everything else but the
    handlers of routes *)
Theorem C93_middleware_at_the_call {A} (spare : nat -> nat -> nat) (l : list (sact A)) :
  map bare (abs (acts spare l st_empty)) = map bare (trun (calls spare l st_empty) []).1.
Proof. symmetry. apply (acts_bare spare l st_empty inv_empty). Qed.
Print Assumptions C93_middleware_at_the_call.
Example C93_inhabited :
  map (fun x => (r_befores x, r_sub x)) (abs (acts zx_spare zx_shared st_empty)) =
    [([IFuncCtx 1; IFuncCtx 2; IFuncCtx 7], [1; 3]); ([IFuncCtx 2; IFuncCtx 9], [2]); ([], []); ([], [])] /\
  st_hit (acts zx_spare zx_shared st_empty) = false.
Proof. split; vm_compute; reflexivity. Qed.

(** ** C94 *)

(** A cell of a client's array holds what the client put there last. *)
Theorem C94_client_slices_untouched {A} (spare : nat -> nat -> nat) (l l' : list (sact A)) (arr i : nat) (v : ival A) :
  let st := acts spare l st_empty in
  existsb (act_writes arr i) l' = false -> cell st arr i = Some v -> cell (acts spare l' st) arr i = Some v.
Proof. intros st Hw. apply keeps_acts; [apply acts_inv, inv_empty|done]. Qed.
Print Assumptions C94_client_slices_untouched.
Example C94_inhabited :
  let st := acts zx_spare (take 1 zx_shared) st_empty in
  existsb (act_writes 0 2) (drop 1 zx_shared) = false /\ cell st 0 2 = Some (IFuncCtx 3) /\
  existsb (act_writes 0 0) (drop 1 zx_shared) = true /\ cell (acts zx_spare (drop 1 zx_shared) st) 0 0 = Some (IFuncCtx 9).
Proof. split; [|split; [|split]]; vm_compute; reflexivity. Qed.
