(** Handlers that write more, or less, than they announced. *)
From Coq Require Import ZArith NArith.
From Verif Require Import Base GoStr Strconv UtilSpec Header RequestSpec Pattern Tree TreeSpec Router RouterSpec Ctx CtxFacts Engine EngineSpec NetServe StrconvFacts
  NetFrame FrameSpec FrameClaim FrameTop FrameConn FrameRun FrameOver ExampleRegexp ExampleRouter ExampleServe PropFrame.
Local Open Scope Z_scope.

(** ** The example: a handler that announces 3 bytes and writes 8, in pieces *)
Definition fh_code (h : handler nat) : prog gostr :=
  match h with
  | HFuncCtx 1%nat => PDo (OHeaderSet (L "content-length") (L "3")) (fun _ => PDo (OWrite (L "hel")) (fun _ => PDo (OWrite (L "HTTP/")) (fun _ => PRet)))
  | _ => PRet
  end.
Definition fh_ops : list (rop nat) := [RNew; RHandle 0 0 (L "/a") [IFuncCtx 1%nat]].
Notation fh_run e r := (ServeHTTP ex_find ex_sniff ex_form fh_code e 0 newContext (arrive r no_body)).
Definition fh_exchange (e : engine nat) (r : request) : exchange :=
  mkExchange r fd_date false (cn_rw (fh_run e r).2) (pieces (cn_log (fh_run e r).2)).
Lemma fh_proper h : only proper (fh_code h).
Proof.
  destruct h as [a|a|a|a]; try exact I. destruct a as [|[|a]]; try exact I; cbn.
  split; [|done]. split; [by apply lit_name|]. apply (bool_decide_eq_true _). vm_compute. reflexivity.
Qed.

(** C118.  [written]: all that the handlers wrote.  If that is not of the announced length,
    the reply is the last one on the connection.  A client can read nothing but the first
    len bytes, and it reads them if and only if a call of Write ends there. *)
Theorem C118_measured {A V : Type} re_find sniff parse_form (code : handler A -> prog V) has_token status_text keep size ex n h z len :
  (forall n t, status_text n = Some t -> bare t) -> (forall d, one_line (sniff d)) ->
  (forall h, only proper (code h)) -> served re_find sniff parse_form code ex ->
  asks_head ex = false -> response_head (ex_response ex) = (n, h) -> ~ bodiless false n ->
  h_values h (L "Content-Length") = [z] -> udecimal z len -> len < 2 ^ 63 ->
  let written := concat (ex_pieces ex) in
  let bytes := fst (ex_answer has_token status_text sniff keep size ex) in
  rw_body (ex_response ex) = written /\
  (len <> Z.of_nat (length written) -> forall es, answered has_token status_text sniff keep size (ex :: es) = [ex] /\ connection has_token status_text sniff keep size (ex :: es) = bytes) /\
  (forall m rest, reads false bytes m rest -> rest = [] /\ exists fs, m = (n, fs, take (Z.to_nat len) written) /\ len <= Z.of_nat (length written)) /\
  ((exists m rest, reads false bytes m rest) <-> exists a b, ex_pieces ex = a ++ b /\ Z.of_nat (length (concat a)) = len).
Proof. intros Ht Hl. exact (measured_served sniff parse_form re_find code has_token status_text keep size Ht Hl ex n h z len). Qed.
Print Assumptions C118_measured.

Example C118_case : exists e h, engine_of ex_ok fh_ops 0 [] e /\ (forall h, only proper (fh_code h)) /\
  let ex := fh_exchange e (get (L "/a")) in
  served ex_find ex_sniff ex_form fh_code ex /\ asks_head ex = false /\ response_head (ex_response ex) = (200, h) /\ ~ bodiless false 200 /\
  h_values h (L "Content-Length") = [L "3"] /\ udecimal (L "3") 3 /\ ex_pieces ex = [L "hel"; L "HTTP/"] /\
  connection fd_token fd_text ex_sniff true 10 [ex; ex] =
    fd_lines [L "HTTP/1.1 200 OK"; L "Content-Length: 3"; L "Content-Type: text/plain; charset=utf-8"; L "Date: " ++ fd_date; []] ++ L "hel".
Proof.
  assert (with_engine ex_ok fh_ops [] (fun e => let x := fh_exchange e (get (L "/a")) in (fst (fst (fh_run e (get (L "/a")))),
    (fst (response_head (ex_response x)), h_values (snd (response_head (ex_response x))) (L "Content-Length"), ex_pieces x), connection fd_token fd_text ex_sniff true 10 [x; x])) =
    Some (EDone, (200, [L "3"], [L "hel"; L "HTTP/"]),
      fd_lines [L "HTTP/1.1 200 OK"; L "Content-Length: 3"; L "Content-Type: text/plain; charset=utf-8"; L "Date: " ++ fd_date; []] ++ L "hel")) as H by (vm_compute; reflexivity).
  apply with_engine_split in H as (e & He & Hs). cbv zeta in Hs. apply pair_equal_spec in Hs as [Hs Hb]. apply pair_equal_spec in Hs as [Hd Hs].
  apply pair_equal_spec in Hs as [Hs Hp]. apply pair_equal_spec in Hs as [Hn Hc].
  exists e, (snd (response_head (ex_response (fh_exchange e (get (L "/a")))))). split; [exact He|]. split; [exact fh_proper|]. cbv zeta. split.
  { unfold fh_exchange. destruct (fh_run e (get (L "/a"))) as [[en px] c'] eqn:E. cbn [fst snd] in *. subst en.
    exists e, 0%nat, newContext, (get (L "/a")), no_body, px, c', fd_date, false. split; [exact E|]. split; [exact fd_date_line|reflexivity]. }
  split; [reflexivity|]. split; [rewrite <- Hn at 1; by destruct (response_head _)|]. split; [unfold bodiless; intros [Hx|Hx]; [discriminate Hx|lia]|].
  split; [exact Hc|]. split; [exact (itoa_udecimal 3 ltac:(lia))|]. split; [exact Hp|exact Hb].
Qed.
