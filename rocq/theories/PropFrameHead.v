(** HEAD and GET as clients read them from the connection. *)
From Coq Require Import ZArith NArith.
From Verif Require Import Base GoStr Strconv UtilSpec Header RequestSpec Pattern Tree TreeSpec Router RouterSpec PathClean Ctx CtxFacts Util Getters Content TraceSpec Engine EngineSpec
  ServeTop ServeThms ServeMore LastingSpec ParamSpec StaticReg Static StaticSpec FileFacts NetServe CondSpec NetFile NetRange RangeSpec NetHead HeadSpec
  NetFrame FrameSpec FrameClaim FrameRead FrameFacts FrameTop FrameSend FrameCut FrameConn FrameRun FrameFile FrameHead FrameHeadRun
  ExampleRegexp ExampleRouter ExampleServe PropStatic PropCond PropRange PropHead PropFrame PropFrameFile.
Local Open Scope Z_scope.

(** ** The example: a handler that writes "hello", and the file a.txt with "abc" *)
Definition fi_code (h : handler nat) : prog gostr :=
  match h with
  | HFuncCtx 3%nat => PDo (OHeaderSet (L "x-name") (L "a")) (fun _ => PDo (OWrite (L "hel")) (fun _ => PDo (OWrite (L "lo")) (fun _ => PRet)))
  | _ => PRet
  end.
Lemma fi_polite h : only polite (fi_code h).
Proof.
  destruct h as [a|a|a|a]; try exact I. destruct a as [|[|[|[|a]]]]; try exact I; cbn.
  split; [|done]. split; [by apply lit_name|]. apply (bool_decide_eq_true _). vm_compute. reflexivity.
Qed.
Definition fi_run (code : handler nat -> prog gostr) e r := ServeHTTP ex_find ex_sniff ex_form code e 0 newContext (arrive r no_body).
Definition fi_exchange code (e : engine nat) (r : request) : exchange :=
  mkExchange r fd_date false (cn_rw (fi_run code e r).2) (pieces (cn_log (fi_run code e r).2)).
Definition fi_bytes code e r : gostr := fst (ex_answer fd_token fd_text ex_sniff true 10 (fi_exchange code e r)).
(** both requests get to the handler, and the bytes on the connection are these *)
Definition fi_case code (pat : gostr) (h : nat) (r : request) (a b : gostr) : Prop :=
  exists e, engine_of ex_ok (ew_ops pat h) 0 [] e /\ ew_route e pat h r /\ ew_route e pat h (with_method (L "HEAD") r) /\
    fst (fst (fi_run code e r)) = EDone /\ fst (fst (fi_run code e (with_method (L "HEAD") r))) = EDone /\
    fi_bytes code e r = a /\ fi_bytes code e (with_method (L "HEAD") r) = b.
Lemma fi_holds code pat h r a b v w :
  with_engine ex_ok (ew_ops pat h) [] (fun e => (routes e, (fst (fst (fi_run code e r)), fst (fst (fi_run code e (with_method (L "HEAD") r)))),
    (fi_bytes code e r, fi_bytes code e (with_method (L "HEAD") r)))) = Some ([v; w], (EDone, EDone), (a, b)) ->
  rq_method r = L "GET" -> rt_method v = L "GET" -> rt_method w = L "HEAD" -> rt_variant v = pat -> rt_variant w = pat -> rt_uri v = pat -> rt_uri w = pat ->
  rt_handlers v = [HFuncCtx h] -> rt_handlers w = [HFuncCtx h] ->
  (exists q, uri_route ex_ok pat q /\ route_accepts ex_find q (path_segs (rq_path r))) -> fi_case code pat h r a b.
Proof.
  intros Hw Hm Hv1 Hw1 Hv2 Hw2 Hv4 Hw4 Hv3 Hw3 Hq. apply with_engine_split in Hw as (e & He & Hs).
  apply pair_equal_spec in Hs as [Hs Hb]. apply pair_equal_spec in Hs as [Hr Ha]. apply pair_equal_spec in Ha as [Ha1 Ha2]. apply pair_equal_spec in Hb as [Hb1 Hb2].
  exists e. split; [exact He|]. split; [|split; [|split; [exact Ha1|split; [exact Ha2|split; [exact Hb1|exact Hb2]]]]].
  - exists v. split; [|done]. split; [rewrite Hr; left|]. split; [split; [congruence|by rewrite Hv2]|].
    intros u Hu Hf. rewrite Hr in Hu. apply elem_of_cons in Hu as [->|Hu]; [done|]. apply elem_of_list_singleton in Hu as ->.
    destruct Hf as [[Hf _]|(_ & Hf & _)]; rewrite Hw1, Hm in Hf; vm_compute in Hf; discriminate.
  - exists w. split; [|done]. split; [rewrite Hr; right; left|]. split; [split; [done|by rewrite Hw2]|].
    intros u Hu Hf. rewrite Hr in Hu. apply elem_of_cons in Hu as [->|Hu]; [|by apply elem_of_list_singleton in Hu].
    destruct Hf as [[Hf _]|(_ & Hf & _)]; rewrite Hv1 in Hf; vm_compute in Hf; discriminate.
Qed.
Ltac fi := eapply fi_holds; [vm_compute; reflexivity|reflexivity..|]; eexists; split; [apply calc_route_ok; vm_compute; reflexivity|];
  repeat first [apply accepts_last; reflexivity | apply accepts_next; [reflexivity|] | apply accepts_rest; [reflexivity|]].

(** C119.  Handlers that do not look at the method: a client that asks with HEAD reads the
    status and the header lines that it would read with GET, and no body.  A
    Content-Length is the length of the body that GET gets. *)
Theorem C119_handlers {A V : Type} re_ok re_find sniff parse_form (code : handler A -> prog V) has_token status_text keep buffer
    ops r0 opts e id id' x x' r body px px' c c' hs d d' u u' :
  (forall n t, status_text n = Some t -> bare t) -> (forall d, one_line (sniff d)) ->
  (forall a b, (buffer <= length a)%nat -> sniff (a ++ b) = sniff a) ->
  (forall h, only polite (code h)) -> one_line d -> one_line d' ->
  engine_of re_ok ops r0 opts e -> ServeHTTP re_find sniff parse_form code e id x (arrive r body) = (EDone, px, c) ->
  ServeHTTP re_find sniff parse_form code e id' x' (arrive (with_method (L "HEAD") r) body) = (EDone, px', c') ->
  rq_method r = L "GET" -> (forall b d, parse_form b (with_method (L "HEAD") r) d = parse_form b r d) -> (forall n, ~ refused r n) ->
  (forall hs', dispatched re_ok re_find e r hs' <-> hs' = hs) -> (forall hs', dispatched re_ok re_find e (with_method (L "HEAD") r) hs' <-> hs' = hs) ->
  (forall h, h ∈ hs -> method_blind (code h) /\ only param_free (code h) /\ only path_free (code h)) ->
  let ex := mkExchange r d u (cn_rw c) (pieces (cn_log c)) in
  let ex' := mkExchange (with_method (L "HEAD") r) d' u' (cn_rw c') (pieces (cn_log c')) in
  let bytes ex := fst (ex_answer has_token status_text sniff keep buffer ex) in
  exists n fs fs',
    (forall m rest, reads false (bytes ex) m rest <-> m = (n, fs, rw_body (cn_rw c)) /\ rest = []) /\
    (forall m rest, reads true (bytes ex') m rest <-> m = (n, fs', []) /\ rest = []) /\
    (forall k, is_token k -> canon k ∉ hop_names -> (n = 304 -> canon k <> L "Content-Type") -> field_values k fs' = field_values k fs) /\
    field_values (L "Transfer-Encoding") fs' = [] /\
    forall z, z ∈ field_values (L "Content-Length") fs' -> udecimal z (Z.of_nat (length (rw_body (cn_rw c)))).
Proof.
  intros Ht Hl Hw.
  exact (blind_read re_ok re_find sniff parse_form code has_token status_text keep buffer Ht Hl Hw ops r0 opts e id id' x x' r body px px' c c' hs d d' u u').
Qed.
Print Assumptions C119_handlers.
Example C119_handlers_case :
  fi_case fi_code (L "/x") 3 (get (L "/x"))
    (fd_lines [L "HTTP/1.1 200 OK"; L "Content-Type: text/plain; charset=utf-8"; L "X-Name: a"; L "Date: " ++ fd_date; L "Content-Length: 5"; []] ++ L "hello")
    (fd_lines [L "HTTP/1.1 200 OK"; L "Content-Type: text/plain; charset=utf-8"; L "X-Name: a"; L "Date: " ++ fd_date; L "Content-Length: 5"; []]) /\
  (forall h, only polite (fi_code h)) /\
  method_blind (fi_code (HFuncCtx 3%nat)) /\ only param_free (fi_code (HFuncCtx 3%nat)) /\ only path_free (fi_code (HFuncCtx 3%nat)) /\
  (forall e pat h r hs, ew_route e pat h r -> dispatched ex_ok ex_find e r hs <-> hs = [HFuncCtx h]).
Proof. split; [fi|]. split; [exact fi_polite|]. split; [by cbn|]. split; [by cbn|]. split; [by cbn|]. apply C110_handlers_partial_case. Qed.

(** Files below static routes, whatever the conditions and ranges. *)
Theorem C119_files :
  forall (A V F O : Type) re_ok re_find sniff parse_form (code : handler A -> prog V) location page parse_time (modtime : F -> option Z) http_date
    strict content ctype bnd (serve_file : request -> gostr -> gostr -> gostr -> gostr -> O -> list (gostr * option gostr) * Z * list gostr)
    has_token status_text keep buffer,
  (forall n t, status_text n = Some t -> bare t) -> (forall d, one_line (sniff d)) ->
  (forall a b, (buffer <= length a)%nat -> sniff (a ++ b) = sniff a) ->
  (forall r t etag enc p os, 100 <= (serve_file r t etag enc p os).1.2 <= 999) -> (forall h, only proper (code h)) ->
  let serve := net_serve parse_time modtime http_date (net_send strict content ctype bnd) in
  forall ops r0 opts e id id' x x' r body body' px px' c c' v v' h h' pre o open os name mtime size base f d d' u u',
  engine_of re_ok ops r0 opts e -> ServeHTTP re_find sniff parse_form code e id x (arrive r body) = (EDone, px, c) ->
  ServeHTTP re_find sniff parse_form code e id' x' (arrive (with_method (L "HEAD") r) body') = (EDone, px', c') ->
  rq_method r = L "GET" -> (forall n, ~ refused r n) ->
  sole_route re_ok re_find e v r -> sole_route re_ok re_find e v' (with_method (L "HEAD") r) ->
  Forall literal_seg pre -> rt_variant v = slashed (pre ++ [L "*"]) -> rt_variant v' = slashed (pre ++ [L "*"]) ->
  rt_handlers v = [h] -> rt_handlers v' = [h'] ->
  code h = static_handler location page serve serve_file o open os ->
  code h' = static_handler location page serve serve_file o open os ->
  file_name pre r name -> open name = Regular mtime size base f -> one_line d -> one_line d' -> strict = true -> content f <> [] ->
  (forall n hd z m, rw_sent (cn_rw c) = Some (n, hd) \/ rw_sent (cn_rw c') = Some (n, hd) -> has hd (L "Content-Length") z -> udecimal z m -> m < 2 ^ 63) ->
  let ex := mkExchange r d u (cn_rw c) (pieces (cn_log c)) in
  let ex' := mkExchange (with_method (L "HEAD") r) d' u' (cn_rw c') (pieces (cn_log c')) in
  let bytes ex := fst (ex_answer has_token status_text sniff keep buffer ex) in
  exists n fs fs',
    (forall m rest, reads false (bytes ex) m rest <-> m = (n, fs, rw_body (cn_rw c)) /\ rest = []) /\
    (forall m rest, reads true (bytes ex') m rest <-> m = (n, fs', []) /\ rest = []) /\
    (forall k, is_token k -> canon k ∉ hop_names -> (n = 304 -> canon k <> L "Content-Type") -> field_values k fs' = field_values k fs) /\
    field_values (L "Transfer-Encoding") fs' = [] /\
    forall z, z ∈ field_values (L "Content-Length") fs' -> udecimal z (Z.of_nat (length (rw_body (cn_rw c)))).
Proof.
  intros A V F O re_ok re_find sniff parse_form code location page parse_time modtime http_date strict content ctype bnd serve_file has_token status_text keep buffer Ht Hl Hw Hv Hp.
  exact (files_read re_ok re_find sniff parse_form code has_token status_text keep buffer Ht Hl Hw location page parse_time modtime http_date strict content ctype bnd serve_file Hv Hp).
Qed.
Print Assumptions C119_files.
Example C119_files_case :
  fi_case fe_code (L "/f/*") 1 (ev_req (L "/f/a.txt") (L "bytes=1-"))
    (fd_lines [L "HTTP/1.1 206 status code 206"; L "Accept-Ranges: bytes"; L "Content-Length: 2"; L "Content-Range: bytes 1-2/3"; L "Content-Type: text/plain"; L "Etag: 7-3"; L "Last-Modified: Thu"; L "Date: " ++ fd_date; []] ++ L "bc")
    (fd_lines [L "HTTP/1.1 206 status code 206"; L "Accept-Ranges: bytes"; L "Content-Length: 2"; L "Content-Range: bytes 1-2/3"; L "Content-Type: text/plain"; L "Etag: 7-3"; L "Last-Modified: Thu"; L "Date: " ++ fd_date; []]) /\
  (forall h, only proper (fe_code h)).
Proof. split; [|exact fe_proper]. fi. Qed.
