(** Properties of calling handlers, of parsing forms, of path parameters and of the listening address. *)
From Verif Require Import Base GoStr GoStrFacts Strconv UtilSpec StrconvFacts Tree Header Router RouterSpec Ctx CtxFacts TraceSpec
  Engine EngineSpec ExampleRegexp ExampleRouter ExampleServe Util Getters CallSpec HttpFacts BodySpec.

(** ** C50, the call itself *)
(** The code of a handler runs from its start on: that of a water handler, or that
    of a net/http handler, given the request being served; when it returns, the
    handler has ended. *)
Theorem C50_called_with_request :
  forall (A V : Type) re_ok re_find sniff parse_form (water_code : A -> prog V) http_code ops r0 opts e id x r body en px c',
  engine_of re_ok ops r0 opts e ->
  ServeHTTP re_find sniff parse_form (invoke water_code http_code) e id x (arrive r body) = (en, px, c') ->
  starts (cn_log c') <> [] ->
  exists hs, dispatched re_ok re_find e r hs /\
    forall l1 i l2, cn_log c' = l1 ++ EvStart i :: l2 -> invoked water_code http_code r hs i l2.
Proof. exact @serve_called. Qed.
Print Assumptions C50_called_with_request.
(** all four types in one chain *)
Definition hx_water (n : nat) : prog gostr := match n with 1 => PNext PRet | _ => PRet end.
Definition hx_http (n : nat) (r : request) : prog gostr := PDo (OHeaderSet (L "X") (rq_path r)) (fun _ => PRet).
Example C50_called_case :
  exists e px c', engine_of ex_ok [RNew; RHandle 0 0 (L "/m") [IFuncCtx 1; IHttpHandler 2; IHandler 3; IHttpFunc 4]] 0 [] e /\
    ServeHTTP ex_find ex_sniff ex_form (invoke hx_water hx_http) e 0 newContext (arrive (get (L "/m")) no_body) = (EDone, px, c') /\
    cn_log c' = [EvStart 0; EvNext; EvStart 1; EvCall ORequest (Norm (get (L "/m"))); EvCall (OHeaderSet (L "X") (L "/m")) (Norm tt); EvEnd 1;
      EvStart 2; EvEnd 2; EvStart 3; EvCall ORequest (Norm (get (L "/m"))); EvCall (OHeaderSet (L "X") (L "/m")) (Norm tt); EvEnd 3; EvEnd 0].
Proof.
  edestruct (with_engine_split ex_ok [RNew; RHandle 0 0 (L "/m") [IFuncCtx 1; IHttpHandler 2; IHandler 3; IHttpFunc 4]] [] (fun e =>
    let '(en, _, c) := ServeHTTP ex_find ex_sniff ex_form (invoke hx_water hx_http) e 0 newContext (arrive (get (L "/m")) no_body) in (en, cn_log c)))
    as (e & He & Hs); [vm_compute; reflexivity|].
  destruct (ServeHTTP _ _ _ _ _ _ _ _) as [[en px] c'] eqn:H.
  injection Hs as H1 H2. subst en. exists e, px, c'. split; [exact He|]. split; [exact H|]. rewrite H2. reflexivity.
Qed.

(** ** C58: parsing a form *)
(** The first use of a form parses it, as multipart exactly for a multipart
    request; an error panics, and the response is not touched. *)
Theorem C58_parser :
  forall (A V : Type) sniff parse_form next (k : unit -> prog V) (x : ctxobj A V) (c : conn V),
  x_parsed x = false ->
  exists b, (b = true <-> multipart_request (cn_req c)) /\
  forall f ok rest, parse_form b (cn_req c) (unread (cn_body c)) = (f, ok, rest) ->
  exists x' c', x_parsed x' = true /\ cn_form c' = Some f /\ cn_body c' = mkBody rest (bd_feed (cn_body c)) /\ cn_rw c' = cn_rw c /\
    (ok = true -> pexec sniff parse_form next (PDo OParseForm k) x c = pexec sniff parse_form next (k tt) x' c') /\
    (ok = false -> exists v, pexec sniff parse_form next (PDo OParseForm k) x c = (EThrow (Some v), (x', c'))).
Proof. exact @parse_choice. Qed.
Print Assumptions C58_parser.
(** Later uses leave everything as it is, even if the first one failed. *)
Theorem C58_only_once :
  forall (A V : Type) sniff parse_form next (k : unit -> prog V) (x : ctxobj A V) (c : conn V),
  x_parsed x = true ->
  exists c', pexec sniff parse_form next (PDo OParseForm k) x c = pexec sniff parse_form next (k tt) x c' /\
    cn_form c' = cn_form c /\ cn_body c' = cn_body c /\ cn_rw c' = cn_rw c.
Proof. exact @parse_again. Qed.
Print Assumptions C58_only_once.
Example C58_case :
  let form m := mkReq m 1 1 (L "/f") (L "/f") {[ L "Content-Type" := [L "multipart/form-data; boundary=b"] ]} [] false in
  x_parsed (newContext (A:=nat) (V:=gostr)) = false /\
  multipart_request (form (L "PATCH")) /\ ~ multipart_request (form (L "GET")) /\ ~ multipart_request (get (L "/f")).
Proof.
  cbv zeta. split; [reflexivity|]. split; [|split].
  - split; [right; right; left|]. exists [], (L "; boundary=b"). vm_compute. reflexivity.
  - intros H. apply is_multipart_true in H. vm_compute in H. discriminate.
  - intros H. apply is_multipart_true in H. vm_compute in H. discriminate.
Qed.

(** ** C59: path parameters *)
(** Every getter of a path parameter panics exactly when there is no parameter of
    that name. *)
Theorem C59_missing :
  forall (p : option Params) name,
  let absent := p ≫= (.!! name) = None in
  (absent <-> exists m, Params_String p name = Panic m) /\
  (absent <-> exists m, MustBool p name = Panic m) /\ (absent <-> exists m, MustInt p name = Panic m) /\
  (absent <-> exists m, MustInt64 p name = Panic m) /\ (absent <-> exists m, MustUint p name = Panic m) /\
  (absent <-> exists m, MustUint64 p name = Panic m).
Proof.
  intros p name absent. unfold absent, MustBool, MustInt, MustInt64, MustUint, MustUint64, Params_Bool, Params_Int, Params_Int64,
    Params_Uint, Params_Uint64, Params_String.
  destruct (p ≫= _) as [s|]; cbn [rbind].
  - split_and!; (split; [discriminate|intros [? ?]; discriminate]).
  - split_and!; (split; [intros _; eexists; reflexivity|reflexivity]).
Qed.
Print Assumptions C59_missing.
(** String gives the value as it is; MustBool gives true for the words for true
    and false otherwise; the integers are those of C28. *)
Theorem C59_present :
  forall (p : option Params) name s, p ≫= (.!! name) = Some s ->
  Params_String p name = Ok s /\
  MustBool p name = Ok (bool_decide (s ∈ [L "1"; L "t"; L "T"; L "true"; L "TRUE"; L "True"])).
Proof.
  intros p name s H. unfold MustBool, Params_Bool, Params_String. rewrite H. cbn [rbind]. split; [reflexivity|]. f_equal.
  apply eq_true_iff_eq. rewrite bool_decide_eq_true, !elem_of_cons, elem_of_nil, <- !seqb_true. unfold parse_bool. cbn [existsb].
  destruct (_ || _) eqn:E; [|match goal with |- context [if ?b then _ else _] => destruct b end; cbn [fst]].
  - rewrite !orb_true_iff in E. cbn [fst]. destruct E as [E|[E|[E|[E|[E|[E|E]]]]]]; [tauto..|discriminate].
  - rewrite !orb_false_iff in E. destruct E as (E1 & E2 & E3 & E4 & E5 & E6 & _). rewrite E1, E2, E3, E4, E5, E6. intuition discriminate.
  - rewrite !orb_false_iff in E. destruct E as (E1 & E2 & E3 & E4 & E5 & E6 & _). rewrite E1, E2, E3, E4, E5, E6. intuition discriminate.
Qed.
Print Assumptions C59_present.
Example C59_case :
  let p := Some {[ L "id" := L "-7" ]} : option Params in
  p ≫= (.!! L "id") = Some (L "-7") /\ MustInt p (L "id") = Ok (-7)%Z /\ p ≫= (.!! L "x") = None.
Proof. split_and!; [apply lookup_singleton|vm_compute; reflexivity|by apply lookup_singleton_ne]. Qed.

(** ** C60: the address to listen on *)
Theorem C60_address :
  forall addr,
  (forall a, resolveAddress addr = Ok a <-> (addr = [] /\ a = L ":8080") \/ addr = [a]) /\
  ((2 <= length addr)%nat <-> exists m, resolveAddress addr = Panic m).
Proof.
  intros [|a [|b l]]; (split; [intros x|]); cbn [resolveAddress length]; split.
  - intros [= <-]. tauto.
  - intros [[_ ->]|?]; [reflexivity|discriminate].
  - lia.
  - intros [m ?]. discriminate.
  - intros [= <-]. tauto.
  - intros [[? _]|[= ->]]; [discriminate|reflexivity].
  - lia.
  - intros [m ?]. discriminate.
  - discriminate.
  - intros [[? _]|?]; discriminate.
  - intros _. eexists. reflexivity.
  - lia.
Qed.
Print Assumptions C60_address.
