(** Properties of conditional requests for files with a tag of the handler's own. *)
From Verif Require Import Base GoStr Strconv Pattern Tree TreeSpec Header Router RouterSpec PathClean Ctx Util UtilSpec Content
  TraceSpec Engine EngineSpec ServeThms StaticReg Static StaticSpec StaticTop NetServe NetFile NetRange RangeSpec NetRangeFacts RangeTop RedirectFacts HelperLog
  CondSpec CondTop FileSpec FileFacts CtxFacts TagSpec TagFacts TagServe ExampleRegexp ExampleRouter ExampleServe PropCond PropRange.
Local Open Scope Z_scope.

(** ** C112 *)
(** A handler has set ETag to a tag, strong or weak, and nothing has been sent; then
    this or another handler calls Download or Attachment.  The reply to a GET or HEAD
    request with any conditions in their proper form is the one that RFC 7232 and
    7233 ask for; it has the tag and the Content-Disposition; 304 says nothing of the
    content.  [l3]: what the chain does later. *)
Theorem C112_attachments :
  forall (A V F : Type) re_ok re_find sniff parse_form (code : handler A -> prog V) parse_time,
  (forall s u, parse_time s = Some u -> """"%char ∉ s) ->
  forall (modtime : F -> option Z) http_date strict content ctype bnd
    ops r0 opts (e : engine A) id x r body en px c' (download : bool) name inline f k i l1 l2 T,
  engine_of re_ok ops r0 opts e ->
  ServeHTTP re_find sniff parse_form code e id x (arrive r body) = (en, px, c') -> uses_ctx code e ->
  let serve := net_serve parse_time modtime http_date (net_send strict content ctype bnd) in
  (forall hs, dispatched re_ok re_find e r hs -> exists g, hs !! i = Some g /\
     code g = if download then Download serve (Some (name, f)) inline (fun _ => k) else Attachment serve name inline f k) ->
  cn_log c' = l1 ++ EvStart i :: l2 -> ~ responded l1 ->
  h_get (headers_of l1) (L "ETag") = T -> entity_tag T ->
  rq_method r = L "GET" \/ rq_method r = L "HEAD" -> proper_conditions (h_get (rq_header r)) ->
  h_get (headers_of l1) (L "Content-Encoding") = [] -> h_values (headers_of l1) (L "Content-Type") = [] ->
  let t := if download then L "application/octet-stream" else ctype f in
  exists a n hd m l3, tag_answers parse_time T (modtime f) (h_get (rq_header r)) a /\
    l2 = m ++ l3 /\ starts m = [] /\ rw_sent (cn_rw c') = Some (n, hd) /\
    h_get hd (L "ETag") = T /\ h_get hd (L "Content-Disposition") = contentDisposition name (disposition inline) /\
    match a with
    | Precondition => n = 412 /\ rw_body (cn_rw c') = data_of l3
    | NotModified => n = 304 /\ rw_body (cn_rw c') = [] /\ no_entity hd
    | CondSpec.Content rg => exists out, rw_body (cn_rw c') = out ++ data_of l3 /\
        delivered (content f) t bnd (bool_decide (rq_method r = L "HEAD")) rg n hd out /\
        (strict = true -> content f <> [] -> contained (content f) t bnd (bool_decide (rq_method r = L "HEAD")) n hd out)
    end.
Proof.
  intros * Hd *. exact (attachment_by _ _ _ _ _ _ _ _ _ _ _ _ _ _ (conditional_proper parse_time Hd) _ _ _ _ _ _ _ _ _ _ _ _ _ _ _ _ _ _ _ _).
Qed.
Print Assumptions C112_attachments.

(** The same for ServeFile with a file, where the path of the request is not special
    to http.ServeFile (C100). *)
Theorem C112_serve_file :
  forall (A V F D : Type) re_ok re_find sniff parse_form (code : handler A -> prog V) parse_time,
  (forall s u, parse_time s = Some u -> """"%char ∉ s) ->
  forall (modtime : F -> option Z) http_date strict content ctype bnd
    raw_query (listing : request -> D -> list (gostr * option gostr) * Z * list gostr),
  (forall r d, 100 <= (listing r d).1.2 <= 999) ->
  forall ops r0 opts (e : engine A) id x r body en px c' name os p f k i l1 l2 T,
  engine_of re_ok ops r0 opts e -> ServeHTTP re_find sniff parse_form code e id x (arrive r body) = (en, px, c') -> uses_ctx code e ->
  let serve := net_serve parse_time modtime http_date (net_send strict content ctype bnd) in
  (forall hs, dispatched re_ok re_find e r hs -> exists g, hs !! i = Some g /\ code g = ServeFile raw_query serve listing name os k) ->
  cn_log c' = l1 ++ EvStart i :: l2 -> ~ responded l1 ->
  opened name p -> os p = Plain f -> ~ dotted (rq_path r) -> ~ ends_in (rq_path r) (L "/index.html") ->
  h_get (headers_of l1) (L "ETag") = T -> entity_tag T ->
  rq_method r = L "GET" \/ rq_method r = L "HEAD" -> proper_conditions (h_get (rq_header r)) ->
  h_get (headers_of l1) (L "Content-Encoding") = [] -> h_values (headers_of l1) (L "Content-Type") = [] ->
  exists a n hd m l3, tag_answers parse_time T (modtime f) (h_get (rq_header r)) a /\
    l2 = m ++ l3 /\ starts m = [] /\ rw_sent (cn_rw c') = Some (n, hd) /\ h_get hd (L "ETag") = T /\
    match a with
    | Precondition => n = 412 /\ rw_body (cn_rw c') = data_of l3
    | NotModified => n = 304 /\ rw_body (cn_rw c') = [] /\ no_entity hd
    | CondSpec.Content rg => exists out, rw_body (cn_rw c') = out ++ data_of l3 /\
        delivered (content f) (ctype f) bnd (bool_decide (rq_method r = L "HEAD")) rg n hd out /\
        (strict = true -> content f <> [] -> contained (content f) (ctype f) bnd (bool_decide (rq_method r = L "HEAD")) n hd out)
    end.
Proof.
  intros * Hd * Hl *. exact (serve_file_by _ _ _ _ _ _ _ _ _ _ _ _ _ _ (conditional_proper parse_time Hd) _ _ Hl _ _ _ _ _ _ _ _ _ _ _ _ _ _ _ _ _ _ _ _).
Qed.
Print Assumptions C112_serve_file.

(** The specification gives one answer to every such request. *)
Theorem C112_determined :
  forall parse_time T m h a b, entity_tag T ->
  (forall s u, parse_time s = Some u -> """"%char ∉ s) -> entity_tag (h (L "If-Range")) \/ """"%char ∉ h (L "If-Range") ->
  tag_answers parse_time T m h a -> tag_answers parse_time T m h b -> a = b.
Proof. exact tag_answers_fun. Qed.
Print Assumptions C112_determined.

(** *** A case that meets the hypotheses: the tag is set by the handler before *)
Definition ez_code (h : handler nat) : prog gostr :=
  match h with
  | HFuncCtx 1%nat => PDo (OHeaderSet (L "ETag") (L """v1""")) (fun _ => PNext PRet)
  | _ => ev_code true h
  end.
Definition ez_ops (j : nat) : list (rop nat) := [RNew; RHandle 0 0 (L "/") [IFuncCtx 1%nat; IFuncCtx j]].
Definition ez_req (hd : header) : request := mkReq (L "GET") 1 1 (L "/") (L "/") hd (L "192.0.2.1:9") false.
Notation ez_run e r := (ServeHTTP ex_find ex_sniff ex_form ez_code e 0 newContext (arrive r no_body)).
Definition ez_seen (e : engine nat) (hd : header) : Z * gostr :=
  let c := (ez_run e (ez_req hd)).2 in (match rw_sent (cn_rw c) with Some (n, _) => n | None => 0 end, rw_body (cn_rw c)).
Definition ez_reqs : list header :=
  [ {[ L "If-None-Match" := [L """v0"" , W/""v1"""] ]}; {[ L "If-None-Match" := [L """v0"",,"] ]}; {[ L "If-Match" := [L """v0"", ""v1"""] ]};
    {[ L "If-Match" := [L "W/""v1"""] ]}; <[ L "Range" := [L "bytes=1-"] ]> {[ L "If-Range" := [L """v1"""] ]};
    <[ L "Range" := [L "bytes=1-"] ]> {[ L "If-Range" := [L """v0"""] ]} ].
Definition ez_replies : list (Z * gostr) := [(304, []); (200, L "abc"); (200, L "abc"); (412, []); (206, L "bc"); (200, L "abc")].
Lemma ez_uses j e : j = 2%nat \/ j = 3%nat \/ j = 5%nat -> chains e = ([(L "GET", [HFuncCtx 1%nat; HFuncCtx j])], []) -> uses_ctx ez_code e.
Proof.
  intros Hj Hc. injection Hc as Hc1 Hc2. split; [|rewrite Hc2; intros h Hin; by apply elem_of_nil in Hin].
  intros v h Hv Hh. assert (rt_handlers v = [HFuncCtx 1%nat; HFuncCtx j]) as E.
  { assert ((rt_method v, rt_handlers v) ∈ [(L "GET", [HFuncCtx 1%nat; HFuncCtx j])]) as Hin by (rewrite <- Hc1; apply elem_of_list_fmap; by exists v).
    apply elem_of_list_singleton in Hin. by injection Hin. }
  rewrite E in Hh. apply elem_of_cons in Hh as [->|Hh]. { cbn. split; [by intros []|]. done. }
  apply elem_of_list_singleton in Hh as ->.
  destruct Hj as [->|[->| ->]]; cbn [ez_code ev_code Download Attachment ServeFile]; unfold ServeContent, ServeFile; cbn [seqp fold_right only];
    repeat (split; [by intros []|]; intros ?);
    match goal with |- only _ (deliver false ?y _) => destruct y as [[hs n] out] end; unfold deliver; cbn iota; by apply ev_puts.
Qed.
Definition ez_before : list (event gostr) := [EvStart 0; EvCall (OHeaderSet (L "ETag") (L """v1""")) (Norm tt); EvNext].
Lemma ez_tag w o : forallb (fun a => bool_decide (33 ≤ N_of_ascii a)%N && negb (N_of_ascii a =? 34)%N && bool_decide (N_of_ascii a ≤ 126)%N) o = true -> entity_tag (tag_of w o).
Proof.
  intros H. exists w, o. split; [done|]. apply Forall_forall. intros a Ha. rewrite forallb_forall in H. apply elem_of_list_In, H in Ha.
  rewrite !andb_true_iff, !bool_decide_eq_true, negb_true_iff, N.eqb_neq in Ha. unfold etagc. lia.
Qed.
Lemma ez_proper : Forall (fun hd : header => proper_conditions (h_get hd)) ez_reqs.
Proof.
  assert (entity_tag (L """v0""") /\ entity_tag (L """v1""") /\ entity_tag (L "W/""v1""")) as (T0 & T1 & W1).
  { split; [exact (ez_tag false (L "v0") eq_refl)|]. split; [exact (ez_tag false (L "v1") eq_refl)|exact (ez_tag true (L "v1") eq_refl)]. }
  assert (Forall blank []) as B0 by constructor. assert (Forall blank (L " ")) as B1 by (constructor; [by left|constructor]).
  assert (tag_header []) as H0 by (by left). assert (""""%char ∉ @nil ascii) as N0 by (by intros ?%elem_of_nil).
  repeat (constructor; [split_and!; try exact H0; try (right; exact N0)|]); [..|constructor].
  - right; right. eexists. exact (tl_more [] _ (L " ") _ _ B0 T0 B1 (tl_last (L " ") _ [] B1 W1 B0)).
  - right; right. eexists. exact (tl_more [] _ [] _ _ B0 T0 B0 (tl_skip [] _ _ B0 (tl_end [] B0))).
  - right; right. eexists. exact (tl_more [] _ [] _ _ B0 T0 B0 (tl_last (L " ") _ [] B1 T1 B0)).
  - right; right. eexists. exact (tl_last [] _ [] B0 W1 B0).
  - left. exact T1.
  - left. exact T0.
Qed.
Example C112_case : forall j, j = 2%nat \/ j = 3%nat \/ j = 5%nat ->
  exists e, engine_of ex_ok (ez_ops j) 0 [] e /\ uses_ctx ez_code e /\
    (forall hd hs, dispatched ex_ok ex_find e (ez_req hd) hs -> hs !! 1%nat = Some (HFuncCtx j)) /\
    ~ responded ez_before /\ h_get (headers_of ez_before) (L "ETag") = L """v1""" /\ entity_tag (L """v1""") /\
    h_get (headers_of ez_before) (L "Content-Encoding") = [] /\ h_values (headers_of ez_before) (L "Content-Type") = [] /\
    Forall (fun hd : header => proper_conditions (h_get hd) /\ exists l2, cn_log (ez_run e (ez_req hd)).2 = ez_before ++ EvStart 1 :: l2) ez_reqs /\
    map (ez_seen e) ez_reqs = ez_replies.
Proof.
  intros j Hj.
  assert (exists e, engine_of ex_ok (ez_ops j) 0 [] e /\ chains e = ([(L "GET", [HFuncCtx 1%nat; HFuncCtx j])], []) /\
    map (fun hd => take 4 (cn_log (ez_run e (ez_req hd)).2)) ez_reqs = map (fun _ => ez_before ++ [EvStart 1%nat]) ez_reqs /\
    map (ez_seen e) ez_reqs = ez_replies) as (e & He & Hc & Hl & Hs).
  { destruct Hj as [->|[->| ->]]; [set (i := 2%nat)|set (i := 3%nat)|set (i := 5%nat)]; (edestruct (with_engine_split ex_ok (ez_ops i) [] (fun e => (chains e,
      map (fun hd => take 4 (cn_log (ez_run e (ez_req hd)).2)) ez_reqs, map (ez_seen e) ez_reqs))) as (e & He & Hs); [vm_compute; reflexivity|]);
      apply pair_equal_spec in Hs as [Hs H3]; apply pair_equal_spec in Hs as [H1 H2]; exists e; (split; [exact He|]; split; [exact H1|]); (split; [exact H2|exact H3]). }
  exists e. split; [exact He|]. split; [by apply (ez_uses j)|].
  split. { intros hd hs Hd. apply (dispatched_chains _ _ _ _ _ _ Hc) in Hd. apply elem_of_list_singleton in Hd. by injection Hd as ->. }
  split; [by intros Hx; apply Hx|]. split; [vm_compute; reflexivity|]. split; [exact (ez_tag false (L "v1") eq_refl)|].
  split; [vm_compute; reflexivity|]. split; [vm_compute; reflexivity|]. split; [|exact Hs].
  clear Hs. pose proof ez_proper as Hp. revert Hl Hp. generalize ez_reqs as l. induction l as [|hd l IH]; intros Hl Hp; [constructor|].
  cbn [map] in Hl. inversion Hp as [|? ? P1 P2]; subst. constructor.
  - split; [exact P1|]. exists (drop 4 (cn_log (ez_run e (ez_req hd)).2)).
    assert (take 4 (cn_log (ez_run e (ez_req hd)).2) = ez_before ++ [EvStart 1%nat]) as E by (by injection Hl).
    rewrite <- (take_drop 4 (cn_log _)) at 1. by rewrite E.
  - apply IH; [|exact P2]. by injection Hl.
Qed.
