(** Properties of the response helpers in handlers anywhere in the chain. *)
From Verif Require Import Base GoStr Strconv Util Pattern Tree TreeSpec Header Router RouterSpec Ctx CtxFacts TraceSpec
  Engine EngineSpec ServeTop ServeThms Content ContentFacts StaticSpec RedirectFacts HelperSpec HelperFacts HelperLog NetFile Getters NetCookie
  ExampleRegexp ExampleRouter ExampleServe PropMiddleware.
Local Open Scope Z_scope.

(** ** The example: a handler that sets headers, and one that answers *)
Definition kx_code (h : handler nat) : prog gostr :=
  match h with
  | HFuncCtx 0%nat => seqp [OHeaderSet (L "Location") (L "old"); OHeaderSet (L "Content-Disposition") (L "old");
      OHeaderSet (L "Cache-Control") (L "old"); OHeaderSet (L "X-Id") (L "7")] PRet
  | HFuncCtx 1%nat => String_ 201 (L "hello") (PDo (OWrite (L " there")) (fun _ => PRet))
  | HFuncCtx 2%nat => Stream (L "image/png") [L "pix"; []; L "els"] true (fun _ => PRet)
  | HFuncCtx 3%nat => NoCache (String_ 200 (L "fresh") PRet)
  | HFuncCtx 4%nat => Found (fun _ u => u) (fun _ u _ => L "see " ++ u) (L "/new") PRet
  | HFuncCtx 5%nat => Attachment mx_serve (L "a.txt") false (L "text") PRet
  | HFuncCtx 6%nat => Download mx_serve (Some (L "a.txt", L "text")) true (fun _ => PRet)
  | HFuncCtx 7%nat => ServeFile (fun _ => L "q=1") mx_serve (fun _ (d : gostr) => ([(L "Content-Type", Some (L "text/html"))], 200, [d])) (L "web/")
      (fun p => if seqb p (L "web") then Directory (L "list") else Failed Missing) (PDo (OWrite (L " end")) (fun _ => PRet))
  | HFuncCtx 8%nat => SetCookie_prog (L "a") (L "x; y") [DInt 60; DStr (L "/p"); DNil; DBool true]
      (SetCookie_prog (L "b") (L "2") [] (String_ 200 (L "set") PRet))
  | _ => PRet
  end.
Notation kx_run e := (ServeHTTP ex_find ex_sniff ex_form kx_code e 0 mx_new (arrive (mx_req (L "GET") []) no_body)).
(** the chain of the two handlers is run, the second one with these headers, and
    the reply has these values of a header and this body *)
Definition kx_behind (j : nat) (k : gostr) (n : Z) (vs : list gostr) (b : gostr) : Prop :=
  exists e, engine_of ex_ok (mx_ops [0%nat; j]) 0 [] e /\ uses_ctx kx_code e /\
  (forall hs, dispatched ex_ok ex_find e (mx_req (L "GET") []) hs -> hs !! 1%nat = Some (HFuncCtx j)) /\
  exists en px c' l1 l2, kx_run e = (en, px, c') /\ cn_log c' = l1 ++ EvStart 1 :: l2 /\ ~ responded l1 /\
    h_values (headers_of l1) (L "Location") = [L "old"] /\ h_values (headers_of l1) (L "X-Id") = [L "7"] /\
    (exists hd, rw_sent (cn_rw c') = Some (n, hd) /\ h_values hd k = vs /\ h_values hd (L "X-Id") = [L "7"]) /\ rw_body (cn_rw c') = b.
Definition kx_log : list (event gostr) := Eval vm_compute in
  EvStart 0 :: map (fun x => EvCall (OHeaderSet x.1 x.2) (Norm tt)) [(L "Location", L "old"); (L "Content-Disposition", L "old");
    (L "Cache-Control", L "old"); (L "X-Id", L "7")] ++ [EvEnd 0].
Lemma kx_engine j k n vs b tbl l6 :
  with_engine ex_ok (mx_ops [0%nat; j]) [] (fun e => (chains e, let '(_, _, c') := kx_run e in (take 7 (cn_log c'),
    (option_map (fun y => (fst y, h_values (snd y) k, h_values (snd y) (L "X-Id"))) (rw_sent (cn_rw c')), rw_body (cn_rw c'))))) =
    Some ((tbl, []), (l6 ++ [EvStart 1%nat], (Some (n, vs, [L "7"]), b))) ->
  length l6 = 6%nat -> ~ responded l6 -> h_values (headers_of l6) (L "Location") = [L "old"] -> h_values (headers_of l6) (L "X-Id") = [L "7"] ->
  tbl = [(L "GET", [HFuncCtx 0%nat; HFuncCtx j]); (L "OPTIONS", [HFuncCtx 0%nat; HFuncCtx j])] ->
  only (fun o => ~ raw o) (kx_code (HFuncCtx j)) -> kx_behind j k n vs b.
Proof.
  intros Hw Hlen Hr V1 V2 -> Ho. apply with_engine_split in Hw as (e & He & Hs). apply pair_equal_spec in Hs as [Hc Hs].
  exists e. split; [exact He|]. split.
  { pose proof Hc as Hc'. injection Hc' as Hc1 Hc2. split; [|rewrite Hc2; intros h Hin; by apply elem_of_nil in Hin].
    intros v h Hv Hh. assert (rt_handlers v = [HFuncCtx 0%nat; HFuncCtx j]) as E.
    { assert ((rt_method v, rt_handlers v) ∈ [(L "GET", [HFuncCtx 0%nat; HFuncCtx j]); (L "OPTIONS", [HFuncCtx 0%nat; HFuncCtx j])]) as Hin.
      { rewrite <- Hc1. apply elem_of_list_fmap. by exists v. }
      rewrite !elem_of_cons, elem_of_nil in Hin. destruct Hin as [E|[E|[]]]; by injection E. }
    rewrite E, !elem_of_cons, elem_of_nil in Hh. destruct Hh as [->|[->|[]]]; [|exact Ho].
    cbn. repeat first [by intros []|intros ?|split|exact I]. }
  split.
  { intros hs Hd. apply (dispatched_chains _ _ _ _ _ _ Hc) in Hd. rewrite !elem_of_cons, elem_of_nil in Hd.
    destruct Hd as [E|[E|[]]]; injection E as -> ; done. }
  destruct (kx_run e) as [[en px] c']. apply pair_equal_spec in Hs as [Hl Hs]. apply pair_equal_spec in Hs as [Hs Hb].
  exists en, px, c', l6, (drop 7 (cn_log c')). split; [done|]. split.
  { rewrite <- (take_drop 7 (cn_log c')) at 1. rewrite Hl. by rewrite <- app_assoc. }
  split; [done|]. split; [done|]. split; [done|]. split; [|done].
  destruct (rw_sent (cn_rw c')) as [[n' hd]|]; [|done]. exists hd. cbn in Hs. injection Hs as -> -> ->. done.
Qed.
Ltac kx := eapply kx_engine with (l6 := kx_log); [vm_compute; reflexivity|reflexivity|by intros Hr; apply Hr|vm_compute; reflexivity|vm_compute; reflexivity|reflexivity|
  cbn; repeat first [by intros []|intros ?|split|exact I|match goal with |- context [if ?b then _ else _] => destruct b end; cbn]].

(** ** C20, C80: status and body *)
(** A helper called by a handler behind others that have not answered: the status
    and the body are the ones given, and the headers are those that the others have
    set, without the Content-Type of the helper. *)
Theorem C20_behind_partial :
  forall (A V : Type) re_ok re_find sniff parse_form (code : handler A -> prog V) ops r0 opts e id x r body en px c' n s k i l1 l2,
  engine_of re_ok ops r0 opts e ->
  ServeHTTP re_find sniff parse_form code e id x (arrive r body) = (en, px, c') -> uses_ctx code e ->
  (forall hs, dispatched re_ok re_find e r hs -> exists g, hs !! i = Some g /\ answers_then (code g) n s k) ->
  cn_log c' = l1 ++ EvStart i :: l2 -> ~ responded l1 -> 100 <= n <= 999 ->
  exists m l3, l2 = m ++ l3 /\ starts m = [] /\ rw_sent (cn_rw c') = Some (n, headers_of l1) /\
    (bodiless n -> rw_body (cn_rw c') = []) /\ (~ bodiless n -> rw_body (cn_rw c') = s ++ data_of l3).
Proof. exact @answer_behind. Qed.
Print Assumptions C20_behind_partial.
Example C20_behind_case : kx_behind 1 (L "Content-Type") 201 [] (L "hello there") /\
  exists n s k, answers_then (kx_code (HFuncCtx 1%nat)) n s k /\ 100 <= n <= 999 /\ ~ bodiless n.
Proof. split; [kx|]. eexists _, _, _. split; [constructor|]. split; [lia|]. unfold bodiless. lia. Qed.
(** Stream delivers its type, whatever type was set before. *)
Theorem C20_stream_behind_partial :
  forall (A V : Type) re_ok re_find sniff parse_form (code : handler A -> prog V) ops r0 opts e id x r body en px c' t out ok k i l1 l2,
  engine_of re_ok ops r0 opts e ->
  ServeHTTP re_find sniff parse_form code e id x (arrive r body) = (en, px, c') -> uses_ctx code e ->
  (forall hs, dispatched re_ok re_find e r hs -> exists g, hs !! i = Some g /\ code g = Stream t out ok k) ->
  cn_log c' = l1 ++ EvStart i :: l2 -> ~ responded l1 -> t <> [] -> concat out <> [] ->
  exists m l3 hd, l2 = m ++ l3 /\ starts m = [] /\ rw_sent (cn_rw c') = Some (200, hd) /\ typed_over t (headers_of l1) hd /\
    rw_body (cn_rw c') = concat out ++ data_of l3.
Proof. exact @stream_behind. Qed.
Print Assumptions C20_stream_behind_partial.
Example C20_stream_behind_case : kx_behind 2 (L "Content-Type") 200 [L "image/png"] (L "pixels").
Proof. kx. Qed.
(** NoCache replaces the caching headers that were set before. *)
Theorem C80_no_cache_behind :
  forall (A V : Type) re_ok re_find sniff parse_form (code : handler A -> prog V) ops r0 opts e id x r body en px c' n s k i l1 l2,
  engine_of re_ok ops r0 opts e ->
  ServeHTTP re_find sniff parse_form code e id x (arrive r body) = (en, px, c') -> uses_ctx code e ->
  (forall hs, dispatched re_ok re_find e r hs -> exists g p, hs !! i = Some g /\ code g = NoCache p /\ answers_then p n s k) ->
  cn_log c' = l1 ++ EvStart i :: l2 -> ~ responded l1 -> 100 <= n <= 999 ->
  exists m l3 hd, l2 = m ++ l3 /\ starts m = [] /\ rw_sent (cn_rw c') = Some (n, hd) /\ no_cache_over (headers_of l1) hd /\
    (bodiless n -> rw_body (cn_rw c') = []) /\ (~ bodiless n -> rw_body (cn_rw c') = s ++ data_of l3).
Proof. exact @nocache_behind. Qed.
Print Assumptions C80_no_cache_behind.
Example C80_no_cache_behind_case :
  kx_behind 3 (L "Cache-Control") 200 [L "no-cache, max-age=0, s-max-age=0, must-revalidate"] (L "fresh").
Proof. kx. Qed.

(** ** C54 *)
(** A redirect behind other handlers: exactly one Location, also if one was set
    before; everything else that was set stays, and if a Content-Type was, there is
    no page. *)
Theorem C54_behind :
  forall (A V : Type) re_ok re_find sniff parse_form (code : handler A -> prog V) (location : request -> gostr -> gostr)
    (page : request -> gostr -> Z -> gostr) ops r0 opts e id x r body en px c' uri n k i l1 l2,
  engine_of re_ok ops r0 opts e ->
  ServeHTTP re_find sniff parse_form code e id x (arrive r body) = (en, px, c') -> uses_ctx code e ->
  (forall hs, dispatched re_ok re_find e r hs -> exists g, hs !! i = Some g /\
     (code g = MovedPermanently location page uri k /\ n = 301 \/ code g = Found location page uri k /\ n = 302)) ->
  cn_log c' = l1 ++ EvStart i :: l2 -> ~ responded l1 ->
  exists m l3 hd, l2 = m ++ l3 /\ starts m = [] /\ rw_sent (cn_rw c') = Some (n, hd) /\
    redirect_over r (location r uri) (headers_of l1) hd /\
    rw_body (cn_rw c') = redirect_page r (headers_of l1) (page r uri n) ++ data_of l3.
Proof. exact @redirect_behind. Qed.
Print Assumptions C54_behind.
Example C54_behind_case : kx_behind 4 (L "Location") 302 [L "/new"] (L "see /new").
Proof. kx. Qed.

(** ** C55 *)
(** An attachment or a download behind other handlers: one Content-Disposition, also
    if one was set before, and the other headers of a download; http.ServeContent is
    then given these headers. *)
Theorem C55_behind :
  forall (A V F : Type) re_ok re_find sniff parse_form (code : handler A -> prog V)
    (serve : request -> gostr -> gostr -> gostr -> F -> list (gostr * option gostr) * Z * list gostr)
    ops r0 opts e id x r body en px c' (download : bool) name inline f k i l1 l2,
  (forall r t etag enc f, 100 <= (serve r t etag enc f).1.2 <= 999) ->
  engine_of re_ok ops r0 opts e ->
  ServeHTTP re_find sniff parse_form code e id x (arrive r body) = (en, px, c') -> uses_ctx code e ->
  (forall hs, dispatched re_ok re_find e r hs -> exists g, hs !! i = Some g /\
     code g = if download then Download serve (Some (name, f)) inline (fun _ => k) else Attachment serve name inline f k) ->
  cn_log c' = l1 ++ EvStart i :: l2 -> ~ responded l1 ->
  exists h1,
    (if download then download_over (contentDisposition name (disposition inline)) (headers_of l1) h1
     else attachment_over (contentDisposition name (disposition inline)) (headers_of l1) h1) /\
    let '(hs, n, out) := serve r (h_get h1 (L "Content-Type")) (h_get h1 (L "Etag")) (h_get h1 (L "Content-Encoding")) f in
    exists m l3, l2 = m ++ l3 /\ starts m = [] /\ rw_sent (cn_rw c') = Some (n, put_headers hs h1) /\
      (bodiless n -> rw_body (cn_rw c') = []) /\ (~ bodiless n -> rw_body (cn_rw c') = concat out ++ data_of l3).
Proof. exact @attach_behind. Qed.
Print Assumptions C55_behind.
Example C55_behind_case : (forall r t etag enc f, 100 <= (mx_serve r t etag enc f).1.2 <= 999) /\
  kx_behind 5 (L "Content-Disposition") 200 [L "attachment; filename=""a.txt""; filename*=UTF-8''a.txt"] (L "text") /\
  kx_behind 6 (L "Cache-Control") 200 [L "must-revalidate"] (L "text").
Proof. split; [intros; cbn; lia|]. split; kx. Qed.
