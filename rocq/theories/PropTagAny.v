(** Properties of conditional requests with any headers, well-formed or not, for files
    with a tag of the handler's own. *)
From Verif Require Import Base GoStr Strconv Pattern Tree TreeSpec Header Router RouterSpec PathClean Ctx Util UtilSpec Content
  TraceSpec Engine EngineSpec ServeThms StaticReg Static StaticSpec StaticTop NetServe NetFile NetRange RangeSpec NetRangeFacts RangeTop RedirectFacts HelperLog
  CondSpec CondTop FileSpec FileFacts CtxFacts TagSpec TagFacts TagServe ExampleRegexp ExampleRouter ExampleServe PropCond PropRange TagAnySpec TagAny PropTag.
Local Open Scope Z_scope.

(** ** C112 *)
(** The same as C112_attachments, for whatever is in the headers of a GET or HEAD
    request: tags that are not closed, or have characters that no tag has, lists
    without commas, or with anything between them.  Lists are read up to what is neither a tag nor a
    comma, and what comes before it counts. *)
Theorem C112_attachments_any :
  forall (A V F : Type) re_ok re_find sniff parse_form (code : handler A -> prog V) parse_time
    (modtime : F -> option Z) http_date strict content ctype bnd
    ops r0 opts (e : engine A) id x r body en px c' (download : bool) name inline f k i l1 l2 T,
  engine_of re_ok ops r0 opts e ->
  ServeHTTP re_find sniff parse_form code e id x (arrive r body) = (en, px, c') -> uses_ctx code e ->
  let serve := net_serve parse_time modtime http_date (net_send strict content ctype bnd) in
  (forall hs, dispatched re_ok re_find e r hs -> exists g, hs !! i = Some g /\
     code g = if download then Download serve (Some (name, f)) inline (fun _ => k) else Attachment serve name inline f k) ->
  cn_log c' = l1 ++ EvStart i :: l2 -> ~ responded l1 ->
  h_get (headers_of l1) (L "ETag") = T -> entity_tag T ->
  rq_method r = L "GET" \/ rq_method r = L "HEAD" ->
  h_get (headers_of l1) (L "Content-Encoding") = [] -> h_values (headers_of l1) (L "Content-Type") = [] ->
  let t := if download then L "application/octet-stream" else ctype f in
  exists a n hd m l3, any_answers parse_time T (modtime f) (h_get (rq_header r)) a /\
    l2 = m ++ l3 /\ starts m = [] /\ rw_sent (cn_rw c') = Some (n, hd) /\
    h_get hd (L "ETag") = T /\ h_get hd (L "Content-Disposition") = contentDisposition name (disposition inline) /\
    match a with
    | Precondition => n = 412 /\ rw_body (cn_rw c') = data_of l3
    | NotModified => n = 304 /\ rw_body (cn_rw c') = [] /\ no_entity hd
    | CondSpec.Content rg => exists out, rw_body (cn_rw c') = out ++ data_of l3 /\
        delivered (content f) t bnd (bool_decide (rq_method r = L "HEAD")) rg n hd out /\
        (strict = true -> content f <> [] -> contained (content f) t bnd (bool_decide (rq_method r = L "HEAD")) n hd out)
    end.
Proof.
  intros * He H Hx serve Hd Hl Hr HT0 HT Hm.
  exact (attachment_by _ _ _ _ _ _ _ _ _ _ _ _ (fun _ => True) _ (conditional_any parse_time) _ _ _ _ _ _ _ _ _ _ _ _ _ _ _ _ _ _ _ _ He H Hx Hd Hl Hr HT0 HT Hm I).
Qed.
Print Assumptions C112_attachments_any.

(** The same for ServeFile with a file. *)
Theorem C112_serve_file_any :
  forall (A V F D : Type) re_ok re_find sniff parse_form (code : handler A -> prog V) parse_time
    (modtime : F -> option Z) http_date strict content ctype bnd
    raw_query (listing : request -> D -> list (gostr * option gostr) * Z * list gostr),
  (forall r d, 100 <= (listing r d).1.2 <= 999) ->
  forall ops r0 opts (e : engine A) id x r body en px c' name os p f k i l1 l2 T,
  engine_of re_ok ops r0 opts e -> ServeHTTP re_find sniff parse_form code e id x (arrive r body) = (en, px, c') -> uses_ctx code e ->
  let serve := net_serve parse_time modtime http_date (net_send strict content ctype bnd) in
  (forall hs, dispatched re_ok re_find e r hs -> exists g, hs !! i = Some g /\ code g = ServeFile raw_query serve listing name os k) ->
  cn_log c' = l1 ++ EvStart i :: l2 -> ~ responded l1 ->
  opened name p -> os p = Plain f -> ~ dotted (rq_path r) -> ~ ends_in (rq_path r) (L "/index.html") ->
  h_get (headers_of l1) (L "ETag") = T -> entity_tag T ->
  rq_method r = L "GET" \/ rq_method r = L "HEAD" ->
  h_get (headers_of l1) (L "Content-Encoding") = [] -> h_values (headers_of l1) (L "Content-Type") = [] ->
  exists a n hd m l3, any_answers parse_time T (modtime f) (h_get (rq_header r)) a /\
    l2 = m ++ l3 /\ starts m = [] /\ rw_sent (cn_rw c') = Some (n, hd) /\ h_get hd (L "ETag") = T /\
    match a with
    | Precondition => n = 412 /\ rw_body (cn_rw c') = data_of l3
    | NotModified => n = 304 /\ rw_body (cn_rw c') = [] /\ no_entity hd
    | CondSpec.Content rg => exists out, rw_body (cn_rw c') = out ++ data_of l3 /\
        delivered (content f) (ctype f) bnd (bool_decide (rq_method r = L "HEAD")) rg n hd out /\
        (strict = true -> content f <> [] -> contained (content f) (ctype f) bnd (bool_decide (rq_method r = L "HEAD")) n hd out)
    end.
Proof.
  intros * Hli * He H Hx serve Hd Hl Hr Ho Hp H1 H2 HT0 HT Hm.
  exact (serve_file_by _ _ _ _ _ _ _ _ _ _ _ _ (fun _ => True) _ (conditional_any parse_time) _ _ Hli _ _ _ _ _ _ _ _ _ _ _ _ _ _ _ _ _ _ _ _ He H Hx Hd Hl Hr Ho Hp H1 H2 HT0 HT Hm I).
Qed.
Print Assumptions C112_serve_file_any.

(** The specification gives one answer to every request. *)
Theorem C112_any_determined :
  forall T, entity_tag T -> forall parse_time m h a b,
  any_answers parse_time T m h a -> any_answers parse_time T m h b -> a = b.
Proof. exact any_answers_fun. Qed.
Print Assumptions C112_any_determined.

(** *** A case that meets the hypotheses: the chains of PropTag, and headers that are not
    well-formed *)
Definition fj_reqs : list header :=
  [ {[ L "If-None-Match" := [L """v0"" ""v1"""] ]}; {[ L "If-None-Match" := [L """v0"", x, ""v1"""] ]};
    {[ L "If-None-Match" := [L """v0" ++ ["127"%char] ++ L """, ""v1"""] ]}; {[ L "If-None-Match" := ["013"%char :: "010"%char :: L """v1"""] ]};
    {[ L "If-None-Match" := [L """"""] ]}; {[ L "If-Match" := [L """v1"] ]};
    <[ L "Range" := [L "bytes=1-"] ]> {[ L "If-Range" := [L """v1"" and so on"] ]}; <[ L "Range" := [L "bytes=1-"] ]> {[ L "If-Range" := [L "v1"] ]} ].
Definition fj_replies : list (Z * gostr) :=
  [(304, []); (200, L "abc"); (200, L "abc"); (304, []); (200, L "abc"); (412, []); (206, L "bc"); (200, L "abc")].
Example C112_any_case : forall j, j = 2%nat \/ j = 3%nat \/ j = 5%nat ->
  exists e, engine_of ex_ok (ez_ops j) 0 [] e /\ uses_ctx ez_code e /\
    (forall hd hs, dispatched ex_ok ex_find e (ez_req hd) hs -> hs !! 1%nat = Some (HFuncCtx j)) /\
    ~ responded ez_before /\ h_get (headers_of ez_before) (L "ETag") = L """v1""" /\ entity_tag (L """v1""") /\
    h_get (headers_of ez_before) (L "Content-Encoding") = [] /\ h_values (headers_of ez_before) (L "Content-Type") = [] /\
    Forall (fun hd : header => exists l2, cn_log (ez_run e (ez_req hd)).2 = ez_before ++ EvStart 1 :: l2) fj_reqs /\
    map (ez_seen e) fj_reqs = fj_replies.
Proof.
  intros j Hj.
  assert (exists e, engine_of ex_ok (ez_ops j) 0 [] e /\ chains e = ([(L "GET", [HFuncCtx 1%nat; HFuncCtx j])], []) /\
    map (fun hd => take 4 (cn_log (ez_run e (ez_req hd)).2)) fj_reqs = map (fun _ => ez_before ++ [EvStart 1%nat]) fj_reqs /\
    map (ez_seen e) fj_reqs = fj_replies) as (e & He & Hc & Hl & Hs).
  { destruct Hj as [->|[->| ->]]; [set (i := 2%nat)|set (i := 3%nat)|set (i := 5%nat)]; (edestruct (with_engine_split ex_ok (ez_ops i) [] (fun e => (chains e,
      map (fun hd => take 4 (cn_log (ez_run e (ez_req hd)).2)) fj_reqs, map (ez_seen e) fj_reqs))) as (e & He & Hs); [vm_compute; reflexivity|]);
      apply pair_equal_spec in Hs as [Hs H3]; apply pair_equal_spec in Hs as [H1 H2]; exists e; (split; [exact He|]; split; [exact H1|]); (split; [exact H2|exact H3]). }
  exists e. split; [exact He|]. split; [by apply (ez_uses j)|].
  split. { intros hd hs Hd. apply (dispatched_chains _ _ _ _ _ _ Hc) in Hd. apply elem_of_list_singleton in Hd. by injection Hd as ->. }
  split; [by intros Hx; apply Hx|]. split; [vm_compute; reflexivity|]. split; [exact (ez_tag false (L "v1") eq_refl)|].
  split; [vm_compute; reflexivity|]. split; [vm_compute; reflexivity|]. split; [|exact Hs].
  clear Hs. revert Hl. generalize fj_reqs as l. induction l as [|hd l IH]; intros Hl; [constructor|].
  cbn [map] in Hl. constructor.
  - exists (drop 4 (cn_log (ez_run e (ez_req hd)).2)).
    assert (take 4 (cn_log (ez_run e (ez_req hd)).2) = ez_before ++ [EvStart 1%nat]) as E by (by injection Hl).
    rewrite <- (take_drop 4 (cn_log _)) at 1. by rewrite E.
  - apply IH. by injection Hl.
Qed.
