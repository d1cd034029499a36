(** Replies as clients read them from the connection. *)
From Coq Require Import ZArith NArith.
From Verif Require Import Base GoStr UtilSpec Header RequestSpec Pattern Tree TreeSpec Router RouterSpec Ctx CtxFacts Engine EngineSpec NetServe NetFrame FrameSpec FrameClaim
  FrameRead FrameFacts FrameTop FrameSend FrameCut FrameConn FrameRun ExampleRegexp ExampleRouter ExampleServe.
Local Open Scope Z_scope.

(** ** The example: a handler with a line end in a header value that writes in pieces, one
    without a body, one that panics, one with an interim status, one that declares a length *)
Definition fd_value : gostr := L "a" ++ crlf ++ L "Set-Cookie: b".
Definition fd_code (h : handler nat) : prog gostr :=
  match h with
  | HFuncCtx 1%nat => PDo (OHeaderSet (L "x-name") fd_value) (fun _ => PDo (OWrite (L "hel")) (fun _ => PDo (OWrite (L "lo world")) (fun _ => PRet)))
  | HFuncCtx 2%nat => PDo (OWriteHeader 204) (fun _ => PRet)
  | HFuncCtx 3%nat => PDo (OWrite (L "hello")) (fun _ => PPanic None)
  | _ => PRet
  end.
Definition fd_ops : list (rop nat) :=
  [RNew; RHandle 0 0 (L "/a") [IFuncCtx 1%nat]; RHandle 0 5 (L "/a") [IFuncCtx 1%nat]; RHandle 0 0 (L "/b") [IFuncCtx 2%nat]; RHandle 0 0 (L "/c") [IFuncCtx 3%nat]].
Definition fd_token (a b : gostr) : bool := seqb a b.
Definition fd_text (n : Z) : option gostr := if n =? 200 then Some (L "OK") else None.
Definition fd_date : gostr := L "Mon, 16 Nov 2026 03:00:00 GMT".
Definition fd_head (path : gostr) : request := mkReq (L "HEAD") 1 1 path path ∅ [] false.
Notation fd_run e r := (ServeHTTP ex_find ex_sniff ex_form fd_code e 0 newContext (arrive r no_body)).
Definition fd_exchange (e : engine nat) (r : request) : exchange :=
  mkExchange r fd_date false (cn_rw (fd_run e r).2) (pieces (cn_log (fd_run e r).2)).
Definition fd_lines (l : list gostr) : gostr := concat (map (fun x => x ++ crlf) l).
Lemma fd_polite h : only polite (fd_code h).
Proof.
  destruct h as [a|a|a|a]; try exact I. destruct a as [|[|[|[|a]]]]; try exact I; cbn.
  - split; [|done]. split; [by apply lit_name|]. apply (bool_decide_eq_true _). vm_compute. reflexivity.
  - split; [|done]. intros [_ H]. by apply H.
  - done.
Qed.
Lemma fd_date_line : one_line fd_date.
Proof. apply one_line_lit. vm_compute. reflexivity. Qed.
Lemma fd_text_line n t : fd_text n = Some t -> bare t.
Proof. unfold fd_text. destruct (n =? 200); [|done]. intros [= <-]. split; apply (bool_decide_eq_true _); vm_compute; reflexivity. Qed.
Lemma fd_sniff_line d : one_line (ex_sniff d).
Proof. apply one_line_lit. vm_compute. reflexivity. Qed.

(** C115 *)
Theorem C115_connection has_token status_text sniff keep size es :
  (forall n t, status_text n = Some t -> bare t) -> (forall d, one_line (sniff d)) ->
  (forall a b, (size <= length a)%nat -> sniff (a ++ b) = sniff a) -> Forall (sound sniff) es ->
  let got := answered has_token status_text sniff keep size es in
  let bytes := connection has_token status_text sniff keep size es in
  exists ms, reads_all (map asks_head got) bytes ms /\ Forall2 (is_reply sniff) got ms /\
    forall ms', reads_all (map asks_head got) bytes ms' -> ms' = ms.
Proof.
  intros Ht Hl Hw Hs. destruct (connection_read has_token status_text sniff keep size Ht Hl Hw es Hs) as (ms & H1 & H2).
  exists ms. split; [exact H1|]. split; [exact H2|]. intros ms' H'. exact (reads_all_one _ _ _ _ H' H1).
Qed.
Print Assumptions C115_connection.
Theorem C115_open has_token status_text sniff size es :
  (forall n t, status_text n = Some t -> bare t) -> (forall d, one_line (sniff d)) ->
  (forall a b, (size <= length a)%nat -> sniff (a ++ b) = sniff a) -> Forall (sound sniff) es -> Forall (stays_open has_token sniff) es ->
  answered has_token status_text sniff true size es = es.
Proof. intros Ht Hl Hw. exact (all_answered has_token status_text sniff true size Ht Hl Hw es eq_refl). Qed.
Print Assumptions C115_open.
Theorem C115_served {A V : Type} re_find sniff parse_form (code : handler A -> prog V) has_token status_text keep size es :
  (forall n t, status_text n = Some t -> bare t) -> (forall d, one_line (sniff d)) ->
  (forall a b, (size <= length a)%nat -> sniff (a ++ b) = sniff a) ->
  (forall h, only polite (code h)) -> Forall (served re_find sniff parse_form code) es ->
  let got := answered has_token status_text sniff keep size es in
  let bytes := connection has_token status_text sniff keep size es in
  exists ms, reads_all (map asks_head got) bytes ms /\ Forall2 (is_reply sniff) got ms /\
    forall ms', reads_all (map asks_head got) bytes ms' -> ms' = ms.
Proof. intros Ht Hl Hw. exact (served_read sniff parse_form re_find code has_token status_text keep size Ht Hl Hw es). Qed.
Print Assumptions C115_served.
(** the value of a line is determined; it is the value that was set, if that has no
    line ends, and no blanks at its ends *)
Theorem C115_value v l : line_of v l -> (forall l', line_of v l' -> l' = l) /\ (one_line v -> l = v).
Proof.
  intros H. split; [|intros Hv; exact (line_of_id v l Hv H)].
  intros l' H'. exact (line_of_one v l' l H' H).
Qed.
Print Assumptions C115_value.
(** a response with an interim status is not taken for the reply *)
Theorem C115_interim_refuted has_token status_text date sniff keep unread size r w ps code h next m rest :
  one_line date -> (forall n t, status_text n = Some t -> bare t) -> (forall d, one_line (sniff d)) ->
  response_head w = (code, h) -> 100 <= code <= 199 -> code <> 101 -> plain_header h ->
  reads (is_head r) (fst (answer has_token status_text date sniff keep unread size r w ps) ++ next) m rest <-> reads (is_head r) next m rest.
Proof. intros Hd Ht Hl. exact (announces has_token status_text date sniff keep unread size r Hd Ht Hl w ps code h next m rest). Qed.
Print Assumptions C115_interim_refuted.

Example C115_example : exists e, engine_of ex_ok fd_ops 0 [] e /\
  Forall (served ex_find ex_sniff ex_form fd_code) [fd_exchange e (get (L "/a")); fd_exchange e (get (L "/b")); fd_exchange e (fd_head (L "/a"))] /\
  connection fd_token fd_text ex_sniff true 4 [fd_exchange e (get (L "/a")); fd_exchange e (get (L "/b")); fd_exchange e (fd_head (L "/a"))] =
    fd_lines [L "HTTP/1.1 200 OK"; L "Content-Type: text/plain; charset=utf-8"; L "X-Name: a  Set-Cookie: b"; L "Date: " ++ fd_date;
              L "Transfer-Encoding: chunked"; []; L "4"; L "hell"; L "7"; L "o world"; L "0"; [];
              L "HTTP/1.1 204 status code 204"; L "Date: " ++ fd_date; [];
              L "HTTP/1.1 200 OK"; L "Content-Type: text/plain; charset=utf-8"; L "X-Name: a  Set-Cookie: b"; L "Date: " ++ fd_date; []].
Proof.
  assert (with_engine ex_ok fd_ops [] (fun e => (map (fun r => fst (fst (fd_run e r))) [get (L "/a"); get (L "/b"); fd_head (L "/a")],
    connection fd_token fd_text ex_sniff true 4 [fd_exchange e (get (L "/a")); fd_exchange e (get (L "/b")); fd_exchange e (fd_head (L "/a"))])) =
    Some ([EDone; EDone; EDone],
    fd_lines [L "HTTP/1.1 200 OK"; L "Content-Type: text/plain; charset=utf-8"; L "X-Name: a  Set-Cookie: b"; L "Date: " ++ fd_date;
              L "Transfer-Encoding: chunked"; []; L "4"; L "hell"; L "7"; L "o world"; L "0"; [];
              L "HTTP/1.1 204 status code 204"; L "Date: " ++ fd_date; [];
              L "HTTP/1.1 200 OK"; L "Content-Type: text/plain; charset=utf-8"; L "X-Name: a  Set-Cookie: b"; L "Date: " ++ fd_date; []])) as H by (vm_compute; reflexivity).
  apply with_engine_split in H as (e & He & Hs). apply pair_equal_spec in Hs as [Hd Hs]. exists e. split; [exact He|]. split; [|exact Hs].
  injection Hd as H1 H2 H3.
  assert (forall r, fst (fst (fd_run e r)) = EDone -> served ex_find ex_sniff ex_form fd_code (fd_exchange e r)) as Hx.
  { intros r Hr. unfold fd_exchange. destruct (fd_run e r) as [[en px] c'] eqn:E. cbn [fst snd] in *. subst en.
    exists e, 0%nat, newContext, r, no_body, px, c', fd_date, false. split; [exact E|]. split; [exact fd_date_line|reflexivity]. }
  constructor; [by apply Hx|]. constructor; [by apply Hx|]. constructor; [by apply Hx|constructor].
Qed.
Example C115_example_value : line_of fd_value (L "a  Set-Cookie: b").
Proof.
  exists [], []. split; [vm_compute; reflexivity|]. split; [constructor|]. split; [constructor|]. apply one_line_lit. vm_compute. reflexivity.
Qed.
Example C115_example_interim : exists w, response_head w = (102, ∅) /\ plain_header ∅ /\
  fst (answer fd_token fd_text fd_date ex_sniff true false 4 (get (L "/a")) w []) = fd_lines [L "HTTP/1.1 102 status code 102"; L "Date: " ++ fd_date; []].
Proof.
  exists (mkRw ∅ (Some (102, ∅)) []). split; [reflexivity|]. split.
  - split; [intros k [x Hk]; by rewrite lookup_empty in Hk|]. split; reflexivity.
  - vm_compute. reflexivity.
Qed.

(** C116 *)
Theorem C116_short has_token status_text date sniff keep unread size r w ps code h z n out closed :
  one_line date -> (forall n t, status_text n = Some t -> bare t) -> (forall d, one_line (sniff d)) ->
  response_head w = (code, h) -> 200 <= code <= 999 -> plain_header h -> rq_method r <> L "HEAD" -> ~ bodiless false code ->
  h_values h (L "Content-Length") = [z] -> udecimal z n -> n < 2 ^ 63 -> Z.of_nat (length (concat ps)) < n ->
  answer has_token status_text date sniff keep unread size r w ps = (out, closed) ->
  closed = true /\ forall m rest, ~ reads false out m rest.
Proof.
  intros Hd Ht Hl Hr Hc Hp Hm. apply (too_short has_token status_text date sniff keep unread size r Hd Ht Hl w ps code h z n out closed Hr Hc Hp).
  unfold is_head. by apply seqb_false.
Qed.
Print Assumptions C116_short.
Theorem C116_panic {A V : Type} re_find sniff parse_form (code : handler A -> prog V) has_token status_text keep unread size date e id x r body v px c' :
  one_line date -> (forall n t, status_text n = Some t -> bare t) -> (forall d, one_line (sniff d)) ->
  (forall h, only polite (code h)) ->
  ServeHTTP re_find sniff parse_form code e id x (arrive r body) = (EThrow v, px, c') -> rq_method r <> L "HEAD" ->
  (forall n h, rw_sent (cn_rw c') = Some (n, h) -> ~ bodiless false n) ->
  forall m rest, ~ reads false (torn has_token status_text date sniff keep unread size r (cn_rw c') (pieces (cn_log c'))) m rest.
Proof.
  intros Hd Ht Hl Hp Hs. exact (panic_unread sniff parse_form re_find code has_token status_text keep size Ht Hl e id x r body v px c' date unread Hp Hd Hs).
Qed.
Print Assumptions C116_panic.
Example C116_example : exists e px c', engine_of ex_ok fd_ops 0 [] e /\ fd_run e (get (L "/c")) = (EThrow None, px, c') /\
  torn fd_token fd_text fd_date ex_sniff true false 4 (get (L "/c")) (cn_rw c') (pieces (cn_log c')) =
    fd_lines [L "HTTP/1.1 200 OK"; L "Content-Type: text/plain; charset=utf-8"; L "Date: " ++ fd_date; L "Transfer-Encoding: chunked"; []; L "5"; L "hello"].
Proof.
  assert (with_engine ex_ok fd_ops [] (fun e => (fst (fst (fd_run e (get (L "/c")))),
    torn fd_token fd_text fd_date ex_sniff true false 4 (get (L "/c")) (cn_rw (fd_run e (get (L "/c"))).2) (pieces (cn_log (fd_run e (get (L "/c"))).2)))) =
    Some (EThrow None, fd_lines [L "HTTP/1.1 200 OK"; L "Content-Type: text/plain; charset=utf-8"; L "Date: " ++ fd_date; L "Transfer-Encoding: chunked"; []; L "5"; L "hello"]))
    as H by (vm_compute; reflexivity).
  apply with_engine_split in H as (e & He & Hs). apply pair_equal_spec in Hs as [Hd Hs].
  destruct (fd_run e (get (L "/c"))) as [[en px] c'] eqn:E. cbn [fst snd] in *. subst en. exists e, px, c'. split; [exact He|]. split; [exact E|exact Hs].
Qed.
Example C116_example_short : exists w, response_head w = (200, rw_hdr w) /\ h_values (rw_hdr w) (L "Content-Length") = [L "9"] /\
  answer fd_token fd_text fd_date ex_sniff true false 4 (get (L "/c")) w [L "hel"; L "lo"] =
    (fd_lines [L "HTTP/1.1 200 OK"; L "Content-Length: 9"; L "Date: " ++ fd_date; L "Content-Type: text/plain; charset=utf-8"; []] ++ L "hello", true).
Proof. exists (mkRw {[L "Content-Length" := [L "9"]]} None (L "hello")). split; [reflexivity|]. split; [vm_compute; reflexivity|]. vm_compute. reflexivity. Qed.
