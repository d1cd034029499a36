(** Properties of requests for parts of files. *)
From Verif Require Import Base GoStr Strconv Pattern Tree TreeSpec Header Router RouterSpec PathClean Ctx Util UtilSpec Content
  TraceSpec Engine EngineSpec ServeThms StaticReg Static StaticSpec StaticTop NetServe NetFile NetRange RangeSpec NetRangeFacts RangeTop RedirectFacts HelperLog
  CondSpec CondTop FileSpec FileFacts CtxFacts ExampleRegexp ExampleRouter ExampleServe PropStatic PropCond.
Local Open Scope Z_scope.

(** ** The example: files a.txt with "abc" and e.txt without content, and their
    download *)
Definition ev_open (name : gostr) : entry gostr :=
  if seqb name (L "a.txt") then Regular 7 3 (L "a.txt") (L "abc") else if seqb name (L "e.txt") then Regular 7 0 (L "e.txt") [] else Absent.
Definition ev_serve (strict : bool) := net_serve ux_time (fun _ : gostr => Some 7) (fun _ => L "Thu") (net_send strict (fun f => f) (fun _ => L "text/plain") (L "xyz")).
Definition ev_list (r : request) (d : gostr) : list (gostr * option gostr) * Z * list gostr := ([], 200, [d]).
Definition ev_os (p : gostr) : node gostr gostr := if seqb p (L "web/a.txt") then Plain (L "abc") else NetFile.Failed Missing.
Definition ev_code (strict : bool) (h : handler nat) : prog gostr :=
  match h with
  | HFuncCtx 1%nat => static_handler fx_location fx_page (ev_serve strict) fx_file fx_opts ev_open []
  | HFuncCtx 2%nat => Download (ev_serve strict) (Some (L "a.txt", L "abc")) true (fun _ => PRet)
  | HFuncCtx 3%nat => Attachment (ev_serve strict) (L "a.txt") false (L "abc") PRet
  | HFuncCtx 4%nat => static_file_handler (net_ServeFile (fun _ => []) (ev_serve strict) ev_list) (L "web/a.txt") ev_os
  | HFuncCtx 5%nat => ServeFile (fun _ => []) (ev_serve strict) ev_list (L "web/a.txt") ev_os PRet
  | _ => PRet
  end.
Definition ev_req (path rg : gostr) : request := mkReq (L "GET") 1 1 path path {[ L "Range" := [rg] ]} (L "192.0.2.1:9") false.
Notation ev_run strict e r := (ServeHTTP ex_find ex_sniff ex_form (ev_code strict) e 0 newContext (arrive r no_body)).
(** status, Content-Range, body *)
Definition ev_seen (strict : bool) (e : engine nat) (path rg : gostr) : Z * list gostr * gostr :=
  let c := (ev_run strict e (ev_req path rg)).2 in
  (match rw_sent (cn_rw c) with Some (n, h) => (n, h_values h (L "Content-Range")) | None => (0, []) end, rw_body (cn_rw c)).
Lemma ev_plain path rg : unconditional (h_get (rq_header (ev_req path rg))).
Proof. unfold unconditional, h_get, h_values. cbn [rq_header ev_req]. split_and!; rewrite lookup_singleton_ne; done. Qed.

(** ** C109 *)
(** A file of a static route, asked for with GET or HEAD and without conditions:
    without a Range header all of it is sent; with one (of any number of ranges, of
    all three kinds, with blanks and empty elements), exactly the bytes that it asks
    for, as one part or as multipart/byteranges with the right Content-Range,
    Content-Type and Content-Length, or 416 if the file has none of them, or all of
    the file if the ranges are longer together (RangeSpec.delivered).  Whatever the
    header, no other bytes are sent (RangeSpec.contained).  The numbers are below
    2^63 and no range is the last 0 bytes, or the last bytes of an empty file.  The
    second part needs Go 1.16 (strict) and a file that is not empty. *)
Theorem C109_static_partial :
  forall (A V F O : Type) re_ok re_find sniff parse_form (code : handler A -> prog V) location page parse_time (modtime : F -> option Z) http_date
    strict content ctype bnd (serve_file : request -> gostr -> gostr -> gostr -> gostr -> O -> list (gostr * option gostr) * Z * list gostr),
  (forall r t etag enc p os, 100 <= (serve_file r t etag enc p os).1.2 <= 999) ->
  forall ops r0 opts e id x r body en px c' v pre h o open os name mtime size base f,
  engine_of re_ok ops r0 opts e -> ServeHTTP re_find sniff parse_form code e id x (arrive r body) = (en, px, c') ->
  (forall n, ~ refused r n) -> sole_route re_ok re_find e v r ->
  Forall literal_seg pre -> rt_variant v = slashed (pre ++ [L "*"]) ->
  rt_handlers v = [h] ->
  code h = static_handler location page (net_serve parse_time modtime http_date (net_send strict content ctype bnd)) serve_file o open os ->
  rq_method r = L "GET" \/ rq_method r = L "HEAD" ->
  file_name pre r name -> open name = Regular mtime size base f -> unconditional (h_get (rq_header r)) ->
  exists n hd, rw_sent (cn_rw c') = Some (n, hd) /\
    delivered (content f) (ctype f) bnd (bool_decide (rq_method r = L "HEAD")) (h_get (rq_header r) (L "Range")) n hd (rw_body (cn_rw c')) /\
    (strict = true -> content f <> [] -> contained (content f) (ctype f) bnd (bool_decide (rq_method r = L "HEAD")) n hd (rw_body (cn_rw c'))) /\
    (so_etag o <> 0%nat -> h_get hd (L "Etag") = file_tag (so_etag o) mtime size base).
Proof. exact @static_ranges. Qed.
Print Assumptions C109_static_partial.
(** The same for a download or an attachment, by any handler in the chain, if none
    before it has answered or set Content-Type or Content-Encoding. *)
Theorem C109_attachments_partial :
  forall (A V F : Type) re_ok re_find sniff parse_form (code : handler A -> prog V) parse_time (modtime : F -> option Z) http_date strict content ctype bnd
    ops r0 opts (e : engine A) id x r body en px c' (download : bool) name inline f k i l1 l2,
  engine_of re_ok ops r0 opts e ->
  ServeHTTP re_find sniff parse_form code e id x (arrive r body) = (en, px, c') -> uses_ctx code e ->
  let serve := net_serve parse_time modtime http_date (net_send strict content ctype bnd) in
  (forall hs, dispatched re_ok re_find e r hs -> exists g, hs !! i = Some g /\
     code g = if download then Download serve (Some (name, f)) inline (fun _ => k) else Attachment serve name inline f k) ->
  cn_log c' = l1 ++ EvStart i :: l2 -> ~ responded l1 ->
  unconditional (h_get (rq_header r)) ->
  h_get (headers_of l1) (L "Content-Encoding") = [] -> h_values (headers_of l1) (L "Content-Type") = [] ->
  let t := if download then L "application/octet-stream" else ctype f in
  exists n hd m l3 out, l2 = m ++ l3 /\ starts m = [] /\ rw_sent (cn_rw c') = Some (n, hd) /\ rw_body (cn_rw c') = out ++ data_of l3 /\
    h_get hd (L "Content-Disposition") = contentDisposition name (disposition inline) /\
    delivered (content f) t bnd (bool_decide (rq_method r = L "HEAD")) (h_get (rq_header r) (L "Range")) n hd out /\
    (strict = true -> content f <> [] -> contained (content f) t bnd (bool_decide (rq_method r = L "HEAD")) n hd out).
Proof. exact @attachment_ranges. Qed.
Print Assumptions C109_attachments_partial.

(** The same for the file of StaticFile, or of a route whose only handler calls File,
    where the path of the request is not special to http.ServeFile (C100). *)
Theorem C109_static_file_partial :
  forall (A V F : Type) re_ok re_find sniff parse_form (code : handler A -> prog V) parse_time (modtime : F -> option Z) http_date strict content ctype bnd
    (D : Type) raw_query (listing : request -> D -> list (gostr * option gostr) * Z * list gostr),
  (forall r d, 100 <= (listing r d).1.2 <= 999) ->
  forall ops r0 opts (e : engine A) id x r body en px c' v h name os p f,
  engine_of re_ok ops r0 opts e -> ServeHTTP re_find sniff parse_form code e id x (arrive r body) = (en, px, c') ->
  (forall n, ~ refused r n) -> sole_route re_ok re_find e v r -> rt_handlers v = [h] ->
  code h = static_file_handler (net_ServeFile raw_query (net_serve parse_time modtime http_date (net_send strict content ctype bnd)) listing) name os ->
  opened name p -> os p = Plain f -> ~ dotted (rq_path r) -> ~ ends_in (rq_path r) (L "/index.html") ->
  unconditional (h_get (rq_header r)) ->
  exists n hd, rw_sent (cn_rw c') = Some (n, hd) /\
    delivered (content f) (ctype f) bnd (bool_decide (rq_method r = L "HEAD")) (h_get (rq_header r) (L "Range")) n hd (rw_body (cn_rw c')) /\
    (strict = true -> content f <> [] -> contained (content f) (ctype f) bnd (bool_decide (rq_method r = L "HEAD")) n hd (rw_body (cn_rw c'))).
Proof. exact @file_ranges. Qed.
Print Assumptions C109_static_file_partial.
(** The same for ServeFile in any handler of a chain. *)
Theorem C109_serve_file_partial :
  forall (A V F : Type) re_ok re_find sniff parse_form (code : handler A -> prog V) parse_time (modtime : F -> option Z) http_date strict content ctype bnd
    (D : Type) raw_query (listing : request -> D -> list (gostr * option gostr) * Z * list gostr),
  (forall r d, 100 <= (listing r d).1.2 <= 999) ->
  forall ops r0 opts (e : engine A) id x r body en px c' name os p f k i l1 l2,
  engine_of re_ok ops r0 opts e -> ServeHTTP re_find sniff parse_form code e id x (arrive r body) = (en, px, c') -> uses_ctx code e ->
  let serve := net_serve parse_time modtime http_date (net_send strict content ctype bnd) in
  (forall hs, dispatched re_ok re_find e r hs -> exists g, hs !! i = Some g /\ code g = ServeFile raw_query serve listing name os k) ->
  cn_log c' = l1 ++ EvStart i :: l2 -> ~ responded l1 ->
  opened name p -> os p = Plain f -> ~ dotted (rq_path r) -> ~ ends_in (rq_path r) (L "/index.html") ->
  unconditional (h_get (rq_header r)) ->
  h_get (headers_of l1) (L "Content-Encoding") = [] -> h_values (headers_of l1) (L "Content-Type") = [] ->
  exists n hd m l3 out, l2 = m ++ l3 /\ starts m = [] /\ rw_sent (cn_rw c') = Some (n, hd) /\ rw_body (cn_rw c') = out ++ data_of l3 /\
    delivered (content f) (ctype f) bnd (bool_decide (rq_method r = L "HEAD")) (h_get (rq_header r) (L "Range")) n hd out /\
    (strict = true -> content f <> [] -> contained (content f) (ctype f) bnd (bool_decide (rq_method r = L "HEAD")) n hd out).
Proof. exact @serve_file_ranges. Qed.
Print Assumptions C109_serve_file_partial.
(** Requests with conditions for a file of a static route with tags: the answers of
    C96, and if the answer is content, what is sent for the Range that counts. *)
Theorem C109_conditional_partial :
  forall (A V F O : Type) re_ok re_find sniff parse_form (code : handler A -> prog V) location page parse_time (modtime : F -> option Z) http_date
    strict content ctype bnd (serve_file : request -> gostr -> gostr -> gostr -> gostr -> O -> list (gostr * option gostr) * Z * list gostr),
  (forall r t etag enc p os, 100 <= (serve_file r t etag enc p os).1.2 <= 999) ->
  forall e r tag f c',
  (forall s u, parse_time s = Some u -> """"%char ∉ s) ->
  file_request re_ok re_find sniff parse_form code location page parse_time modtime http_date (net_send strict content ctype bnd) serve_file e r tag f c' ->
  tags_or_star (h_get (rq_header r) (L "If-Match")) -> tags_or_star (h_get (rq_header r) (L "If-None-Match")) ->
  exists a n hd, answers parse_time tag (modtime f) (h_get (rq_header r)) a /\ rw_sent (cn_rw c') = Some (n, hd) /\ h_get hd (L "Etag") = tag /\
    match a with
    | Precondition => n = 412 /\ rw_body (cn_rw c') = []
    | NotModified => n = 304 /\ rw_body (cn_rw c') = []
    | CondSpec.Content rg =>
        delivered (content f) (ctype f) bnd (bool_decide (rq_method r = L "HEAD")) rg n hd (rw_body (cn_rw c')) /\
        (strict = true -> content f <> [] -> contained (content f) (ctype f) bnd (bool_decide (rq_method r = L "HEAD")) n hd (rw_body (cn_rw c')))
    end.
Proof. exact @static_cond_ranges. Qed.
Print Assumptions C109_conditional_partial.

(** The specification determines the reply: the status, and the bytes unless there
    are several parts. *)
Theorem C109_one_reply :
  forall s t bnd head ps n hd out n' hd' out',
  ranged s t bnd head ps n hd out -> ranged s t bnd head ps n' hd' out' ->
  n = n' /\ (n = 200 \/ length (omap (selected (Z.of_nat (length s))) ps) = 1%nat -> out = out').
Proof. exact ranged_fun. Qed.
Print Assumptions C109_one_reply.
(** Bytes of the file: the body of one part is this part, and the parts of several
    follow one another in the body. *)
Theorem C109_bytes :
  forall s t bnd l body, byteranges s t bnd l body ->
  Forall (fun x => exists d u v, bytes_at s x.1 x.2 d /\ body = u ++ d ++ v) l.
Proof. exact byteranges_bytes. Qed.
Print Assumptions C109_bytes.

(** *** What the restrictions are for *)
(** The last 0 bytes of a file, and the last bytes of an empty one, are sent: as a
    part with a Content-Range that has no bytes or that is no text of one; a number of
    64 bits is an error even for the end of a range; so is a unit other than bytes,
    which is to be ignored (RFC 7233, 3.1); and Go 1.15 takes minus signs. *)
Theorem C109_odd_refuted :
  exists e, engine_of ex_ok fx_ops 0 [] e /\
    ev_seen true e (L "/f/a.txt") (L "bytes=-0") = (206, [L "bytes 3-2/3"], []) /\
    ev_seen true e (L "/f/e.txt") (L "bytes=-5") = (206, [L "bytes 0--1/0"], []) /\
    ev_seen true e (L "/f/a.txt") (L "bytes=1-9223372036854775807") = (206, [L "bytes 1-2/3"], L "bc") /\
    ev_seen true e (L "/f/a.txt") (L "bytes=1-9223372036854775808") = (416, [], L "invalid range" ++ [ascii_of_nat 10]) /\
    ev_seen true e (L "/f/a.txt") (L "lines=1-2") = (416, [], L "invalid range" ++ [ascii_of_nat 10]) /\
    ev_seen false e (L "/f/a.txt") (L "bytes=--6") = (206, [L "bytes 9-2/3"], []).
Proof.
  edestruct (with_engine_split ex_ok fx_ops [] (fun e => (ev_seen true e (L "/f/a.txt") (L "bytes=-0"), ev_seen true e (L "/f/e.txt") (L "bytes=-5"),
    ev_seen true e (L "/f/a.txt") (L "bytes=1-9223372036854775807"), ev_seen true e (L "/f/a.txt") (L "bytes=1-9223372036854775808"),
    ev_seen true e (L "/f/a.txt") (L "lines=1-2"), ev_seen false e (L "/f/a.txt") (L "bytes=--6")))) as (e & He & Hs); [vm_compute; reflexivity|].
  exists e. split; [exact He|]. apply pair_equal_spec in Hs as [Hs H6]. apply pair_equal_spec in Hs as [Hs H5]. apply pair_equal_spec in Hs as [Hs H4].
  apply pair_equal_spec in Hs as [Hs H3]. apply pair_equal_spec in Hs as [H1 H2]. exact (conj H1 (conj H2 (conj H3 (conj H4 (conj H5 H6))))).
Qed.
Print Assumptions C109_odd_refuted.

(** *** Cases that meet the hypotheses *)
Lemma ev_header : range_header [Span 0 0; Suffix 1] (L "bytes=0-0, ,-1").
Proof.
  exists [[Span 0 0]; []; [Suffix 1]], [L "0-0"; L " "; L "-1"]. split; [|done].
  assert (udecimal (L "0") 0 /\ udecimal (L "1") 1) as [H0 H1] by (split; (split; [done|]); (split; [by repeat constructor|reflexivity])).
  constructor; [|constructor; [|constructor; [|constructor]]].
  - exact (wi_one (Span 0 0) (L "0-0") [] [] (wp_span 0 0 (L "0") (L "0") H0 H0 ltac:(lia)) ltac:(constructor) ltac:(constructor)).
  - apply wi_none. constructor; [by left|constructor].
  - exact (wi_one (Suffix 1) (L "-1") [] [] (wp_suffix 1 (L "1") H1) ltac:(constructor) ltac:(constructor)).
Qed.
Example C109_static_case :
  exists e v en px c', engine_of ex_ok fx_ops 0 [] e /\
    let r := ev_req (L "/f/a.txt") (L "bytes=0-0, ,-1") in
    ev_run true e r = (en, px, c') /\ (forall n, ~ refused r n) /\ sole_route ex_ok ex_find e v r /\
    Forall literal_seg [L "f"] /\ rt_variant v = slashed ([L "f"] ++ [L "*"]) /\ rt_handlers v = [HFuncCtx 1%nat] /\
    file_name [L "f"] r (L "a.txt") /\ ev_open (L "a.txt") = Regular 7 3 (L "a.txt") (L "abc") /\ unconditional (h_get (rq_header r)) /\
    h_get (rq_header r) (L "Range") = L "bytes=0-0, ,-1" /\
    range_header [Span 0 0; Suffix 1] (L "bytes=0-0, ,-1") /\ Forall sized [Span 0 0; Suffix 1] /\ Forall (counts 3) [Span 0 0; Suffix 1] /\
    rw_body (cn_rw c') = L "--xyz" ++ newline ++ L "Content-Range: bytes 0-0/3" ++ newline ++ L "Content-Type: text/plain" ++ newline ++ newline ++ L "a" ++ newline ++
      L "--xyz" ++ newline ++ L "Content-Range: bytes 2-2/3" ++ newline ++ L "Content-Type: text/plain" ++ newline ++ newline ++ L "c" ++ newline ++ L "--xyz--" ++ newline.
Proof.
  destruct fx_engine as (e & v & He & _ & Hv & Hh & Hsole). set (r := ev_req (L "/f/a.txt") (L "bytes=0-0, ,-1")).
  destruct (ev_run true e r) as [[en px] c'] eqn:H. exists e, v, en, px, c'. split; [exact He|]. cbv zeta. fold r. split; [exact H|].
  split. { intros n [[Hx|[Hx|Hx]]|_ Hx]; [destruct Hx as [Hx|[_ Hx]]; discriminate Hx|discriminate Hx| |].
    - discriminate Hx.
    - apply Hx. by left. }
  split; [exact (Hsole (L "/f/a.txt") [L "a.txt"] eq_refl ltac:(done))|].
  split; [exact fx_literal|]. split; [exact Hv|]. split; [exact Hh|]. split; [by exists [L "a.txt"]|]. split; [reflexivity|].
  split; [apply ev_plain|]. split; [vm_compute; reflexivity|]. split; [exact ev_header|]. split; [by repeat constructor|]. split; [by repeat constructor|].
  assert (rw_body (cn_rw (ev_run true e r).2) = rw_body (cn_rw c')) as <- by (by rewrite H).
  apply (with_engine_fun ex_ok fx_ops [] (fun e => rw_body (cn_rw (ev_run true e r).2)) _ e); [vm_compute; reflexivity|exact He].
Qed.
Definition ev_ops (j : nat) : list (rop nat) := [RNew; RHandle 0 0 (L "/") [IFuncCtx j]].
Lemma ev_puts k : only (fun o => ~ raw o) k -> forall (hs : list (gostr * option gostr)) n out,
  only (fun o => ~ raw o) (seqp (V:=gostr) (map put_header hs ++ [OWriteHeader n] ++ map OWrite out) k).
Proof.
  intros Hk hs n out. induction hs as [|[key [v|]] hs IH]; cbn; (split; [by intros []|]); intros _; [|exact IH|exact IH].
  induction out as [|d out IH]; [exact Hk|]. cbn. split; [by intros []|]. intros _. exact IH.
Qed.
Lemma ev_uses j e : j = 2%nat \/ j = 3%nat -> chains e = ([(L "GET", [HFuncCtx j])], []) -> uses_ctx (ev_code true) e.
Proof.
  intros Hj Hc. injection Hc as Hc1 Hc2. split; [|rewrite Hc2; intros h Hin; by apply elem_of_nil in Hin].
  intros v h Hv Hh. assert (rt_handlers v = [HFuncCtx j]) as E.
  { assert ((rt_method v, rt_handlers v) ∈ [(L "GET", [HFuncCtx j])]) as Hin by (rewrite <- Hc1; apply elem_of_list_fmap; by exists v).
    apply elem_of_list_singleton in Hin. by injection Hin. }
  rewrite E in Hh. apply elem_of_list_singleton in Hh as ->.
  destruct Hj as [->| ->]; cbn [ev_code Download Attachment]; unfold ServeContent; cbn [seqp fold_right only];
    repeat (split; [by intros []|]; intros ?);
    match goal with |- only _ (deliver false ?y _) => destruct y as [[hs n] out] end; unfold deliver; cbn iota; by apply ev_puts.
Qed.
Example C109_attachments_case : forall j, j = 2%nat \/ j = 3%nat ->
  exists e en px c' l1 l2, engine_of ex_ok (ev_ops j) 0 [] e /\
    let r := ev_req (L "/") (L "bytes=0-0, ,-1") in
    ev_run true e r = (en, px, c') /\ uses_ctx (ev_code true) e /\
    (forall hs, dispatched ex_ok ex_find e r hs -> hs !! 0%nat = Some (HFuncCtx j)) /\
    cn_log c' = l1 ++ EvStart 0 :: l2 /\ ~ responded l1 /\ unconditional (h_get (rq_header r)) /\
    h_get (headers_of l1) (L "Content-Encoding") = [] /\ h_values (headers_of l1) (L "Content-Type") = [] /\
    exists hd t, rw_sent (cn_rw c') = Some (206, hd) /\ t = (if (j =? 2)%nat then L "application/octet-stream" else L "text/plain") /\
    rw_body (cn_rw c') = L "--xyz" ++ newline ++ L "Content-Range: bytes 0-0/3" ++ newline ++ L "Content-Type: " ++ t ++ newline ++ newline ++ L "a" ++ newline ++
      L "--xyz" ++ newline ++ L "Content-Range: bytes 2-2/3" ++ newline ++ L "Content-Type: " ++ t ++ newline ++ newline ++ L "c" ++ newline ++ L "--xyz--" ++ newline.
Proof.
  intros j Hj. set (r := ev_req (L "/") (L "bytes=0-0, ,-1")).
  assert (exists e, engine_of ex_ok (ev_ops j) 0 [] e /\ chains e = ([(L "GET", [HFuncCtx j])], []) /\
    (let c' := (ev_run true e r).2 in (take 1 (cn_log c'), option_map fst (rw_sent (cn_rw c')), rw_body (cn_rw c'))) =
    ([EvStart 0%nat], Some 206, let t := (if (j =? 2)%nat then L "application/octet-stream" else L "text/plain") in
      L "--xyz" ++ newline ++ L "Content-Range: bytes 0-0/3" ++ newline ++ L "Content-Type: " ++ t ++ newline ++ newline ++ L "a" ++ newline ++
      L "--xyz" ++ newline ++ L "Content-Range: bytes 2-2/3" ++ newline ++ L "Content-Type: " ++ t ++ newline ++ newline ++ L "c" ++ newline ++ L "--xyz--" ++ newline)) as (e & He & Hc & Hs).
  { destruct Hj as [->| ->]; [set (i := 2%nat)|set (i := 3%nat)]; (edestruct (with_engine_split ex_ok (ev_ops i) [] (fun e => (chains e,
      let c' := (ev_run true e r).2 in (take 1 (cn_log c'), option_map fst (rw_sent (cn_rw c')), rw_body (cn_rw c'))))) as (e & He & Hs); [vm_compute; reflexivity|]);
      apply pair_equal_spec in Hs as [Hc Hs]; exists e; (split; [exact He|]; split; [exact Hc|]); (etransitivity; [exact Hs|vm_compute; reflexivity]). }
  destruct (ev_run true e r) as [[en px] c'] eqn:H. cbn [snd] in Hs. apply pair_equal_spec in Hs as [Hs Hb]. apply pair_equal_spec in Hs as [Hl Hn].
  exists e, en, px, c', [], (drop 1 (cn_log c')). split; [exact He|]. cbv zeta. fold r. split; [exact H|]. split; [by apply (ev_uses j)|].
  split. { intros hs Hd. apply (dispatched_chains _ _ _ _ _ _ Hc) in Hd. apply elem_of_list_singleton in Hd. by injection Hd as ->. }
  split. { rewrite <- (take_drop 1 (cn_log c')) at 1. by rewrite Hl. }
  split; [by intros Hx; apply Hx|]. split; [apply ev_plain|]. split; [vm_compute; reflexivity|]. split; [vm_compute; reflexivity|].
  destruct (rw_sent (cn_rw c')) as [[n hd]|]; [|done]. injection Hn as ->. by eexists hd, _.
Qed.
(** the hypotheses of the theorem about conditions, for all headers *)
Definition ev_any (hd : header) : request := mkReq (L "GET") 1 1 (L "/f/a.txt") (L "/f/a.txt") hd (L "192.0.2.1:9") false.
Notation ev_asks := (file_request ex_ok ex_find ex_sniff ex_form (ev_code true) fx_location fx_page ux_time (fun _ => Some 7) (fun _ => L "Thu")
  (net_send true (fun f => f) (fun _ => L "text/plain") (L "xyz")) fx_file).
Definition ev_cond (e : engine nat) (hd : header) : Z * gostr :=
  let c := (ev_run true e (ev_any hd)).2 in (match rw_sent (cn_rw c) with Some (n, _) => n | None => 0 end, rw_body (cn_rw c)).
Lemma ev_accepted hd : h_get hd (L "Expect") = [] -> forall n, ~ refused (ev_any hd) n.
Proof.
  intros Hx n [[H|[H|H]]|_ H]; [destruct H as [H|[_ H]]; discriminate H|discriminate H|discriminate H|]. apply H. by left.
Qed.
Example C109_conditional_case :
  exists e, engine_of ex_ok fx_ops 0 [] e /\
    (forall hd, h_get hd (L "Expect") = [] -> ev_asks e (ev_any hd) (L "7-3") (L "abc") (ev_run true e (ev_any hd)).2) /\
    ev_cond e (<[ L "Range" := [L "bytes=1-"] ]> {[ L "If-Range" := [L "Thu"] ]}) = (206, L "bc") /\
    ev_cond e (<[ L "Range" := [L "bytes=1-"] ]> {[ L "If-Range" := [L "Wed"] ]}) = (200, L "abc") /\
    ev_cond e (<[ L "Range" := [L "bytes=5-"] ]> {[ L "If-Match" := [L "*"] ]}) = (416, L "invalid range: failed to overlap" ++ [ascii_of_nat 10]) /\
    ev_cond e (<[ L "Range" := [L "bytes=1-"] ]> {[ L "If-None-Match" := [L "7-3"] ]}) = (304, []).
Proof.
  destruct fx_engine as (e & v & He & _ & Hv & Hh & Hsole). exists e. split; [exact He|]. split.
  { intros hd Hx.
    assert (sole_route ex_ok ex_find e v (ev_any hd)) as Hs by (exact (Hsole (L "/f/a.txt") [L "a.txt"] eq_refl ltac:(done))).
    assert (file_name [L "f"] (ev_any hd) (L "a.txt")) as Hn by (by exists [L "a.txt"]).
    pose proof (ev_accepted hd Hx) as Hr. destruct (ev_run true e (ev_any hd)) as [[en px] c'] eqn:H.
    eexists fx_ops, _, _, _, _, _, _, _, v, _, _, fx_opts, _, _, _, _, _, _.
    split; [exact He|]. split; [exact H|]. split; [exact Hr|]. split; [exact Hs|]. split; [exact fx_literal|]. split; [exact Hv|].
    split; [exact Hh|]. split; [reflexivity|]. split; [by left|]. split; [exact Hn|]. split; [reflexivity|]. split; [done|reflexivity]. }
  assert (map (ev_cond e) [<[ L "Range" := [L "bytes=1-"] ]> {[ L "If-Range" := [L "Thu"] ]}; <[ L "Range" := [L "bytes=1-"] ]> {[ L "If-Range" := [L "Wed"] ]};
    <[ L "Range" := [L "bytes=5-"] ]> {[ L "If-Match" := [L "*"] ]}; <[ L "Range" := [L "bytes=1-"] ]> {[ L "If-None-Match" := [L "7-3"] ]}] =
    [(206, L "bc"); (200, L "abc"); (416, L "invalid range: failed to overlap" ++ [ascii_of_nat 10]); (304, [])]) as H.
  { apply (with_engine_fun ex_ok fx_ops [] (fun e => map (ev_cond e) [<[ L "Range" := [L "bytes=1-"] ]> {[ L "If-Range" := [L "Thu"] ]}; <[ L "Range" := [L "bytes=1-"] ]> {[ L "If-Range" := [L "Wed"] ]};
    <[ L "Range" := [L "bytes=5-"] ]> {[ L "If-Match" := [L "*"] ]}; <[ L "Range" := [L "bytes=1-"] ]> {[ L "If-None-Match" := [L "7-3"] ]}]) _ e); [vm_compute; reflexivity|exact He]. }
  cbn [map] in H. assert (forall (a a' : Z * gostr) l l', a :: l = a' :: l' -> a = a' /\ l = l') as Hc by (intros ? ? ? ? E; by inversion E).
  apply Hc in H as [H1 H]. apply Hc in H as [H2 H]. apply Hc in H as [H3 H]. apply Hc in H as [H4 _]. exact (conj H1 (conj H2 (conj H3 H4))).
Qed.
Example C109_file_case : forall j, j = 4%nat \/ j = 5%nat ->
  opened (L "web/a.txt") (L "web/a.txt") /\ ev_os (L "web/a.txt") = Plain (L "abc") /\
  ~ dotted (L "/") /\ ~ ends_in (L "/") (L "/index.html") /\
  exists e v, engine_of ex_ok (ev_ops j) 0 [] e /\ sole_route ex_ok ex_find e v (ev_req (L "/") (L "bytes=1-")) /\ rt_handlers v = [HFuncCtx j] /\
    ev_seen true e (L "/") (L "bytes=1-") = (206, [L "bytes 1-2/3"], L "bc").
Proof.
  intros j Hj. split.
  { exists (L "web/"), (L "a.txt"). split; [|done]. split; [done|]. split; [apply (bool_decide_eq_false _); by vm_compute|]. right. by exists (L "web"). }
  split; [done|]. split; [intros H; apply dotted_spec in H; by vm_compute in H|]. split; [intros H; apply ends_spec in H; by vm_compute in H|].
  assert (exists e, engine_of ex_ok (ev_ops j) 0 [] e /\ routes e = [mkRoute (L "GET") (L "/") (L "/") [HFuncCtx j]] /\
    ev_seen true e (L "/") (L "bytes=1-") = (206, [L "bytes 1-2/3"], L "bc")) as (e & He & Hr & H2).
  { destruct Hj as [->| ->]; [set (i := 4%nat)|set (i := 5%nat)];
    (edestruct (with_engine_split ex_ok (ev_ops i) [] (fun e => (routes e, ev_seen true e (L "/") (L "bytes=1-")))) as (e & He & Hs); [vm_compute; reflexivity|]);
    apply pair_equal_spec in Hs as [Hs H2]; by exists e. }
  exists e, (mkRoute (L "GET") (L "/") (L "/") [HFuncCtx j]). split; [exact He|]. split; [|split; [reflexivity|exact H2]]. split; [rewrite Hr; left|]. split.
  - split; [reflexivity|]. eexists. split; [apply calc_route_ok; vm_compute; reflexivity|]. apply accepts_last. reflexivity.
  - intros u Hu _. rewrite Hr in Hu. by apply elem_of_list_singleton in Hu.
Qed.

(** ** C40 *)
(** With http.ServeContent as it is: every reply for a file of a static route with
    tags has the tag of the file, whatever the request; a request that has this tag
    in If-None-Match gets 304; 304 has no content; and 200 has all of it. *)
Theorem C40_every_reply :
  forall (A V F O : Type) re_ok re_find sniff parse_form (code : handler A -> prog V) location page parse_time (modtime : F -> option Z) http_date
    strict content ctype bnd (serve_file : request -> gostr -> gostr -> gostr -> gostr -> O -> list (gostr * option gostr) * Z * list gostr),
  (forall r t etag enc p os, 100 <= (serve_file r t etag enc p os).1.2 <= 999) ->
  forall ops r0 opts e id x r body en px c' v pre h o open os name mtime size base f,
  engine_of re_ok ops r0 opts e -> ServeHTTP re_find sniff parse_form code e id x (arrive r body) = (en, px, c') ->
  (forall n, ~ refused r n) -> sole_route re_ok re_find e v r ->
  Forall literal_seg pre -> rt_variant v = slashed (pre ++ [L "*"]) ->
  rt_handlers v = [h] ->
  code h = static_handler location page (net_serve parse_time modtime http_date (net_send strict content ctype bnd)) serve_file o open os ->
  rq_method r = L "GET" \/ rq_method r = L "HEAD" ->
  file_name pre r name -> open name = Regular mtime size base f -> so_etag o <> 0%nat ->
  exists n hd, rw_sent (cn_rw c') = Some (n, hd) /\ h_get hd (L "Etag") = file_tag (so_etag o) mtime size base /\
    (h_get (rq_header r) (L "If-None-Match") = file_tag (so_etag o) mtime size base -> n = 304) /\
    (n = 304 -> rw_body (cn_rw c') = []) /\
    (n = 200 \/ n = 206 \/ n = 304 \/ n = 412 \/ n = 416) /\
    (n = 200 -> rq_method r = L "GET" -> rw_body (cn_rw c') = content f).
Proof. exact @static_tags. Qed.
Print Assumptions C40_every_reply.
