(** Files as clients read them from the connection. *)
From Coq Require Import ZArith NArith.
From Verif Require Import Base GoStr Strconv UtilSpec Header RequestSpec Pattern Tree TreeSpec Router RouterSpec PathClean Ctx CtxFacts Util Getters Content TraceSpec Engine EngineSpec
  StaticReg Static StaticSpec NetServe CondSpec NetFile NetRange RangeSpec NetRangeFacts RangeTop
  NetFrame FrameSpec FrameClaim FrameRead FrameFacts FrameTop FrameSend FrameCut FrameConn FrameRun FrameFile FrameLoad ServeThms HelperSpec HelperLog
  ExampleRegexp ExampleRouter ExampleServe PropStatic PropCond PropRange PropFrame.
Local Open Scope Z_scope.

(** ** The example: the file a.txt with "abc" *)
Definition fe_code (h : handler nat) : prog gostr :=
  match h with
  | HFuncCtx 1%nat => static_handler fx_location fx_page (ev_serve true) fx_file fx_opts ev_open []
  | _ => PRet
  end.
Notation fe_run e r := (ServeHTTP ex_find ex_sniff ex_form fe_code e 0 newContext (arrive r no_body)).
Lemma fe_proper h : only proper (fe_code h).
Proof.
  destruct h as [a|a|a|a]; try exact I. destruct a as [|[|a]]; try exact I. apply static_proper.
  - intros. apply serve_fair.
  - intros. split; [constructor|cbn; lia].
Qed.

(** C117: a client that asks for a file below a static route reads the file, and nothing else *)
Theorem C117_static :
  forall (A V F O : Type) re_ok re_find sniff parse_form (code : handler A -> prog V) location page parse_time (modtime : F -> option Z) http_date
    strict content ctype bnd (serve_file : request -> gostr -> gostr -> gostr -> gostr -> O -> list (gostr * option gostr) * Z * list gostr)
    has_token status_text keep buffer,
  (forall n t, status_text n = Some t -> bare t) -> (forall d, one_line (sniff d)) ->
  (forall a b, (buffer <= length a)%nat -> sniff (a ++ b) = sniff a) ->
  (forall r t etag enc p os, 100 <= (serve_file r t etag enc p os).1.2 <= 999) -> (forall h, only proper (code h)) ->
  forall ops r0 opts e id x r body px c' v pre h o open os name mtime size base f d u,
  engine_of re_ok ops r0 opts e -> ServeHTTP re_find sniff parse_form code e id x (arrive r body) = (EDone, px, c') ->
  (forall n, ~ refused r n) -> sole_route re_ok re_find e v r ->
  Forall literal_seg pre -> rt_variant v = slashed (pre ++ [L "*"]) ->
  rt_handlers v = [h] ->
  code h = static_handler location page (net_serve parse_time modtime http_date (net_send strict content ctype bnd)) serve_file o open os ->
  rq_method r = L "GET" \/ rq_method r = L "HEAD" ->
  file_name pre r name -> open name = Regular mtime size base f -> unconditional (h_get (rq_header r)) -> h_get (rq_header r) (L "Range") = [] ->
  one_line d -> one_line (ctype f) -> Z.of_nat (length (content f)) < 2 ^ 63 ->
  let ex := mkExchange r d u (cn_rw c') (pieces (cn_log c')) in
  let bytes := connection has_token status_text sniff keep buffer [ex] in
  sound sniff ex /\
  exists fs, field_values (L "Content-Type") fs = [ctype f] /\
    forall ms, reads_all [asks_head ex] bytes ms <-> ms = [(200, fs, if asks_head ex then [] else content f)].
Proof.
  intros A V F O re_ok re_find sniff parse_form code location page parse_time modtime http_date strict content ctype bnd serve_file has_token status_text keep buffer Ht Hl Hw Hv Hp.
  exact (static_read re_ok re_find sniff parse_form code location page parse_time modtime http_date strict content ctype bnd serve_file has_token status_text keep buffer Ht Hl Hw Hv Hp).
Qed.
Print Assumptions C117_static.
(** ... and so with conditions and ranges: the client reads the status and the body that C96
    and C109 speak of *)
Theorem C117_any :
  forall (A V F O : Type) re_ok re_find sniff parse_form (code : handler A -> prog V) location page parse_time (modtime : F -> option Z) http_date
    strict content ctype bnd (serve_file : request -> gostr -> gostr -> gostr -> gostr -> O -> list (gostr * option gostr) * Z * list gostr)
    has_token status_text keep buffer,
  (forall n t, status_text n = Some t -> bare t) -> (forall d, one_line (sniff d)) ->
  (forall a b, (buffer <= length a)%nat -> sniff (a ++ b) = sniff a) ->
  (forall r t etag enc p os, 100 <= (serve_file r t etag enc p os).1.2 <= 999) -> (forall h, only proper (code h)) ->
  forall ops r0 opts e id x r body px c' v pre h o open os name mtime size base f d u,
  engine_of re_ok ops r0 opts e -> ServeHTTP re_find sniff parse_form code e id x (arrive r body) = (EDone, px, c') ->
  (forall n, ~ refused r n) -> sole_route re_ok re_find e v r ->
  Forall literal_seg pre -> rt_variant v = slashed (pre ++ [L "*"]) ->
  rt_handlers v = [h] ->
  code h = static_handler location page (net_serve parse_time modtime http_date (net_send strict content ctype bnd)) serve_file o open os ->
  rq_method r = L "GET" \/ rq_method r = L "HEAD" ->
  file_name pre r name -> open name = Regular mtime size base f -> one_line d -> strict = true -> content f <> [] ->
  (forall n hd z m, rw_sent (cn_rw c') = Some (n, hd) -> has hd (L "Content-Length") z -> udecimal z m -> m < 2 ^ 63) ->
  let ex := mkExchange r d u (cn_rw c') (pieces (cn_log c')) in
  sound sniff ex /\
  exists n hd fs, rw_sent (cn_rw c') = Some (n, hd) /\
    forall ms, reads_all [asks_head ex] (connection has_token status_text sniff keep buffer [ex]) ms <-> ms = [(n, fs, if asks_head ex then [] else rw_body (cn_rw c'))].
Proof.
  intros A V F O re_ok re_find sniff parse_form code location page parse_time modtime http_date strict content ctype bnd serve_file has_token status_text keep buffer Ht Hl Hw Hv Hp.
  exact (any_read re_ok re_find sniff parse_form code location page parse_time modtime http_date strict content ctype bnd serve_file has_token status_text keep buffer Ht Hl Hw Hv Hp).
Qed.
Print Assumptions C117_any.
(** the same for every handler that announces the length of what it sends *)
Theorem C117_declared {A V : Type} re_find sniff parse_form (code : handler A -> prog V) ex :
  (forall h, only proper (code h)) -> served re_find sniff parse_form code ex ->
  (forall n h b, finish sniff (ex_response ex) = (n, h, b) -> declares (asks_head ex) n h (length b)) -> sound sniff ex.
Proof. exact (proper_sound sniff parse_form re_find code ex). Qed.
Print Assumptions C117_declared.
(** handlers of static routes are such handlers, if http.ServeFile is one *)
Theorem C117_proper {V F O : Type} location page parse_time (modtime : F -> option Z) http_date strict content ctype bnd
    (serve_file : request -> gostr -> gostr -> gostr -> gostr -> O -> list (gostr * option gostr) * Z * list gostr) o open os :
  (forall r t etag enc p os, fair (serve_file r t etag enc p os)) ->
  only proper (static_handler (V:=V) location page (net_serve parse_time modtime http_date (net_send strict content ctype bnd)) serve_file o open os).
Proof. intros H. apply static_proper; [|exact H]. intros. apply serve_fair. Qed.
Print Assumptions C117_proper.

(** also of the hypotheses of C117_any and C117_declared *)
Example C117_static_case :
  exists e v px c', engine_of ex_ok fx_ops 0 [] e /\
    let r := get (L "/f/a.txt") in
    let ex := mkExchange r fd_date false (cn_rw c') (pieces (cn_log c')) in
    fe_run e r = (EDone, px, c') /\ (forall n, ~ refused r n) /\ sole_route ex_ok ex_find e v r /\
    Forall literal_seg [L "f"] /\ rt_variant v = slashed ([L "f"] ++ [L "*"]) /\ rt_handlers v = [HFuncCtx 1%nat] /\
    file_name [L "f"] r (L "a.txt") /\ ev_open (L "a.txt") = Regular 7 3 (L "a.txt") (L "abc") /\ unconditional (h_get (rq_header r)) /\
    h_get (rq_header r) (L "Range") = [] /\ one_line fd_date /\ one_line (L "text/plain") /\
    connection fd_token fd_text ex_sniff true 10 [ex] =
      fd_lines [L "HTTP/1.1 200 OK"; L "Accept-Ranges: bytes"; L "Content-Length: 3"; L "Content-Type: text/plain"; L "Etag: 7-3"; L "Last-Modified: Thu";
                L "Date: " ++ fd_date; []] ++ L "abc" /\
    (forall h, only proper (fe_code h)) /\ (forall n t, fd_text n = Some t -> bare t) /\ (forall d, one_line (ex_sniff d)) /\
    (forall a b, (10 <= length a)%nat -> ex_sniff (a ++ b) = ex_sniff a) /\ (forall r t etag enc p os, 100 <= (fx_file r t etag enc p os).1.2 <= 999).
Proof.
  destruct fx_engine as (e & v & He & _ & Hv & Hh & Hsole). set (r := get (L "/f/a.txt")).
  destruct (fe_run e r) as [[en px] c'] eqn:H.
  assert (en = EDone) as ->.
  { assert ((fe_run e r).1.1 = en) as <- by (by rewrite H).
    apply (with_engine_fun ex_ok fx_ops [] (fun e => (fe_run e r).1.1) _ e); [vm_compute; reflexivity|exact He]. }
  exists e, v, px, c'. split; [exact He|]. cbv zeta. fold r. split; [exact H|].
  split. { intros n [[Hx|[Hx|Hx]]|_ Hx]; [destruct Hx as [Hx|[_ Hx]]; discriminate Hx|discriminate Hx| |].
    - discriminate Hx.
    - apply Hx. by left. }
  split; [exact (Hsole (L "/f/a.txt") [L "a.txt"] eq_refl ltac:(done))|].
  split; [exact fx_literal|]. split; [exact Hv|]. split; [exact Hh|]. split; [by exists [L "a.txt"]|]. split; [reflexivity|].
  split; [by vm_compute|]. split; [vm_compute; reflexivity|]. split; [exact fd_date_line|]. split; [apply one_line_lit; vm_compute; reflexivity|].
  split; [|split; [exact fe_proper|split; [exact fd_text_line|split; [exact fd_sniff_line|split; [done|intros; cbn; lia]]]]].
  set (seen e := connection fd_token fd_text ex_sniff true 10 [mkExchange r fd_date false (cn_rw (fe_run e r).2) (pieces (cn_log (fe_run e r).2))]).
  assert (seen e = connection fd_token fd_text ex_sniff true 10 [mkExchange r fd_date false (cn_rw c') (pieces (cn_log c'))]) as <- by (unfold seen; by rewrite H).
  apply (with_engine_fun ex_ok fx_ops [] seen _ e); [vm_compute; reflexivity|exact He].
Qed.

(** ... and for downloads and attachments, if nothing else is written *)
Theorem C117_attachments :
  forall (A V F : Type) re_ok re_find sniff parse_form (code : handler A -> prog V) parse_time (modtime : F -> option Z) http_date strict content ctype bnd
    has_token status_text keep buffer,
  (forall n t, status_text n = Some t -> bare t) -> (forall d, one_line (sniff d)) ->
  (forall a b, (buffer <= length a)%nat -> sniff (a ++ b) = sniff a) -> (forall h, only proper (code h)) ->
  forall ops r0 opts (e : engine A) id x r body px c' (download : bool) name inline f k i l1 l2 d u,
  engine_of re_ok ops r0 opts e ->
  ServeHTTP re_find sniff parse_form code e id x (arrive r body) = (EDone, px, c') -> uses_ctx code e ->
  let serve := net_serve parse_time modtime http_date (net_send strict content ctype bnd) in
  (forall hs, dispatched re_ok re_find e r hs -> exists g, hs !! i = Some g /\
     code g = if download then Download serve (Some (name, f)) inline (fun _ => k) else Attachment serve name inline f k) ->
  cn_log c' = l1 ++ EvStart i :: l2 -> ~ responded l1 ->
  unconditional (h_get (rq_header r)) -> h_get (rq_header r) (L "Range") = [] ->
  h_get (headers_of l1) (L "Content-Encoding") = [] -> h_values (headers_of l1) (L "Content-Type") = [] ->
  let t := if download then L "application/octet-stream" else ctype f in
  let ex := mkExchange r d u (cn_rw c') (pieces (cn_log c')) in
  one_line d -> one_line t -> Z.of_nat (length (content f)) < 2 ^ 63 ->
  (length (rw_body (cn_rw c')) <= if asks_head ex then 0 else length (content f))%nat ->
  sound sniff ex /\
  exists fs, field_values (L "Content-Type") fs = [t] /\
    forall ms, reads_all [asks_head ex] (connection has_token status_text sniff keep buffer [ex]) ms <-> ms = [(200, fs, if asks_head ex then [] else content f)].
Proof.
  intros A V F re_ok re_find sniff parse_form code parse_time modtime http_date strict content ctype bnd has_token status_text keep buffer Ht Hl Hw Hp.
  exact (attachment_read re_ok re_find sniff parse_form code parse_time modtime http_date strict content ctype bnd has_token status_text keep buffer Ht Hl Hw Hp).
Qed.
Print Assumptions C117_attachments.
Theorem C117_attachments_proper {V F : Type} parse_time (modtime : F -> option Z) http_date strict content ctype bnd name inline f (k : prog V) :
  let serve := net_serve parse_time modtime http_date (net_send strict content ctype bnd) in
  only proper k -> only proper (Attachment serve name inline f k) /\ only proper (Download serve (Some (name, f)) inline (fun _ => k)).
Proof.
  intros serve Hk. split; [apply attachment_proper|apply download_proper]; try done; intros; apply serve_fair.
Qed.
Print Assumptions C117_attachments_proper.

Definition fg_code (h : handler nat) : prog gostr :=
  match h with
  | HFuncCtx 2%nat => Download (ev_serve true) (Some (L "a.txt", L "abc")) true (fun _ => PRet)
  | HFuncCtx 3%nat => Attachment (ev_serve true) (L "a.txt") false (L "abc") PRet
  | _ => PRet
  end.
Notation fg_run e r := (ServeHTTP ex_find ex_sniff ex_form fg_code e 0 newContext (arrive r no_body)).
Lemma fg_proper h : only proper (fg_code h).
Proof.
  destruct h as [a|a|a|a]; try exact I. destruct a as [|[|[|[|a]]]]; try exact I; [apply download_proper|apply attachment_proper]; try done; intros; apply serve_fair.
Qed.
Lemma fg_uses j e : j = 2%nat \/ j = 3%nat -> chains e = ([(L "GET", [HFuncCtx j])], []) -> uses_ctx fg_code e.
Proof.
  intros Hj Hc. injection Hc as Hc1 Hc2. split; [|rewrite Hc2; intros h Hin; by apply elem_of_nil in Hin].
  intros v h Hv Hh. assert (rt_handlers v = [HFuncCtx j]) as E.
  { assert ((rt_method v, rt_handlers v) ∈ [(L "GET", [HFuncCtx j])]) as Hin by (rewrite <- Hc1; apply elem_of_list_fmap; by exists v).
    apply elem_of_list_singleton in Hin. by injection Hin. }
  rewrite E in Hh. apply elem_of_list_singleton in Hh as ->.
  destruct Hj as [->| ->]; cbn [fg_code Download Attachment]; unfold ServeContent; cbn [seqp fold_right only];
    repeat (split; [by intros []|]; intros ?);
    match goal with |- only _ (deliver false ?y _) => destruct y as [[hs n] out] end; unfold deliver; cbn iota; by apply ev_puts.
Qed.
Example C117_attachments_case : forall j, j = 2%nat \/ j = 3%nat ->
  exists e px c' l1 l2, engine_of ex_ok (ev_ops j) 0 [] e /\
    let r := get (L "/") in
    fg_run e r = (EDone, px, c') /\ uses_ctx fg_code e /\
    (forall hs, dispatched ex_ok ex_find e r hs -> hs !! 0%nat = Some (HFuncCtx j)) /\
    cn_log c' = l1 ++ EvStart 0 :: l2 /\ ~ responded l1 /\ unconditional (h_get (rq_header r)) /\ h_get (rq_header r) (L "Range") = [] /\
    h_get (headers_of l1) (L "Content-Encoding") = [] /\ h_values (headers_of l1) (L "Content-Type") = [] /\
    rw_body (cn_rw c') = L "abc" /\ (forall h, only proper (fg_code h)).
Proof.
  intros j Hj. set (r := get (L "/")).
  assert (exists e, engine_of ex_ok (ev_ops j) 0 [] e /\ chains e = ([(L "GET", [HFuncCtx j])], []) /\
    (let '(en, _, c') := fg_run e r in (en, take 1 (cn_log c'), rw_body (cn_rw c'))) = (EDone, [EvStart 0%nat], L "abc")) as (e & He & Hc & Hs).
  { destruct Hj as [->| ->]; [set (i := 2%nat)|set (i := 3%nat)]; (edestruct (with_engine_split ex_ok (ev_ops i) [] (fun e => (chains e,
      let '(en, _, c') := fg_run e r in (en, take 1 (cn_log c'), rw_body (cn_rw c'))))) as (e & He & Hs); [vm_compute; reflexivity|]);
      apply pair_equal_spec in Hs as [Hc Hs]; exists e; (split; [exact He|]; split; [exact Hc|]); exact Hs. }
  destruct (fg_run e r) as [[en px] c'] eqn:H. apply pair_equal_spec in Hs as [Hs Hb]. apply pair_equal_spec in Hs as [Hn Hl]. subst en.
  exists e, px, c', [], (drop 1 (cn_log c')). split; [exact He|]. cbv zeta. fold r. split; [exact H|]. split; [by apply (fg_uses j)|].
  split. { intros hs Hd. apply (dispatched_chains _ _ _ _ _ _ Hc) in Hd. apply elem_of_list_singleton in Hd. by injection Hd as ->. }
  split. { rewrite <- (take_drop 1 (cn_log c')) at 1. by rewrite Hl. }
  split; [by intros Hx; apply Hx|]. split; [by vm_compute|]. split; [vm_compute; reflexivity|]. split; [vm_compute; reflexivity|]. split; [vm_compute; reflexivity|].
  split; [exact Hb|exact fg_proper].
Qed.
