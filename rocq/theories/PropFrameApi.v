(** Replies of handlers written with the helpers of the package, as clients read them. *)
From Coq Require Import ZArith NArith.
From Verif Require Import Base GoStr Strconv UtilSpec Header RequestSpec Pattern Tree TreeSpec Router RouterSpec Ctx CtxFacts Util Content Middleware NetCookie Engine EngineSpec
  NetFrame FrameSpec FrameClaim FrameTop FrameConn FrameRun FrameApi ExampleRegexp ExampleRouter ExampleServe PropFrame.
Local Open Scope Z_scope.

(** ** The example: Recovery, CORS and a handler with a cookie and JSON in pieces *)
Definition ff_code (h : handler nat) : prog gostr :=
  match h with
  | HFuncCtx 1%nat => Recovery true (fun v => v)
  | HFuncCtx 2%nat => CORS (mkCORS [] [] [] false [] 0)
  | HFuncCtx 3%nat => SetCookie_prog (L "a") (L "b") [] (JSON 201 [L "{""a"":"; L "1}"] true (fun _ => PRet))
  | _ => PRet
  end.
Definition ff_ops : list (rop nat) := [RNew; RUse 0 [IFuncCtx 1%nat; IFuncCtx 2%nat]; RHandle 0 0 (L "/a") [IFuncCtx 3%nat]].
Notation ff_run e r := (ServeHTTP ex_find ex_sniff ex_form ff_code e 0 newContext (arrive r no_body)).
Lemma ff_api h : api (ff_code h).
Proof.
  destruct h as [a|a|a|a]; try apply api_ret. destruct a as [|[|[|[|a]]]]; try apply api_ret.
  - apply api_recovery.
  - apply api_cors.
  - apply api_cookie, api_json; [unfold final; lia|]. intros _. apply api_ret.
Qed.

(** C115 for such handlers *)
Theorem C115_api {A V : Type} re_find sniff parse_form (code : handler A -> prog V) has_token status_text keep size es :
  (forall n t, status_text n = Some t -> bare t) -> (forall d, one_line (sniff d)) ->
  (forall a b, (size <= length a)%nat -> sniff (a ++ b) = sniff a) ->
  (forall h, api (code h)) -> Forall (served re_find sniff parse_form code) es ->
  let got := answered has_token status_text sniff keep size es in
  let bytes := connection has_token status_text sniff keep size es in
  exists ms, reads_all (map asks_head got) bytes ms /\ Forall2 (is_reply sniff) got ms /\
    forall ms', reads_all (map asks_head got) bytes ms' -> ms' = ms.
Proof. intros Ht Hl Hw Hp. exact (served_read sniff parse_form re_find code has_token status_text keep size Ht Hl Hw es (fun h => api_polite _ (Hp h))). Qed.
Print Assumptions C115_api.
(** C116 for such handlers *)
Theorem C116_api {A V : Type} re_find sniff parse_form (code : handler A -> prog V) has_token status_text keep size e id x r body v px c' d u :
  (forall n t, status_text n = Some t -> bare t) -> (forall d, one_line (sniff d)) ->
  (forall h, api (code h)) -> one_line d ->
  ServeHTTP re_find sniff parse_form code e id x (arrive r body) = (EThrow v, px, c') -> rq_method r <> L "HEAD" ->
  (forall n h, rw_sent (cn_rw c') = Some (n, h) -> ~ bodiless false n) ->
  forall m rest, ~ reads false (torn has_token status_text d sniff keep u size r (cn_rw c') (pieces (cn_log c'))) m rest.
Proof. intros Ht Hl Hp. exact (panic_unread sniff parse_form re_find code has_token status_text keep size Ht Hl e id x r body v px c' d u (fun h => api_polite _ (Hp h))). Qed.
Print Assumptions C116_api.

Definition ff_exchange (e : engine nat) (r : request) : exchange :=
  mkExchange r fd_date false (cn_rw (ff_run e r).2) (pieces (cn_log (ff_run e r).2)).
Example C115_api_case :
  (forall h, api (ff_code h)) /\
  exists e, engine_of ex_ok ff_ops 0 [] e /\ served ex_find ex_sniff ex_form ff_code (ff_exchange e (get (L "/a"))) /\
    connection fd_token fd_text ex_sniff true 10 [ff_exchange e (get (L "/a"))] = (fd_lines [L "HTTP/1.1 201 status code 201"; L "Access-Control-Allow-Origin: *"; L "Set-Cookie: a=b; Path=/"; L "Vary: Origin"; L "Date: " ++ fd_date;
      L "Content-Length: 7"; L "Content-Type: text/plain; charset=utf-8"; []] ++ L "{""a"":1}").
Proof.
  split; [exact ff_api|].
  assert (with_engine ex_ok ff_ops [] (fun e => (fst (fst (ff_run e (get (L "/a")))), connection fd_token fd_text ex_sniff true 10 [ff_exchange e (get (L "/a"))])) =
    Some (EDone, (fd_lines [L "HTTP/1.1 201 status code 201"; L "Access-Control-Allow-Origin: *"; L "Set-Cookie: a=b; Path=/"; L "Vary: Origin"; L "Date: " ++ fd_date;
      L "Content-Length: 7"; L "Content-Type: text/plain; charset=utf-8"; []] ++ L "{""a"":1}"))) as H by (vm_compute; reflexivity).
  apply with_engine_split in H as (e & He & Hs). apply pair_equal_spec in Hs as [Hd Hs]. exists e. split; [exact He|]. split; [|exact Hs].
  unfold ff_exchange. destruct (ff_run e (get (L "/a"))) as [[en px] c'] eqn:E. cbn [fst snd] in *. subst en.
  exists e, 0%nat, newContext, (get (L "/a")), no_body, px, c', fd_date, false. split; [exact E|]. split; [exact fd_date_line|reflexivity].
Qed.
