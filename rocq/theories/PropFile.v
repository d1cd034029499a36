(** Properties of File, ServeFile and StaticFile. *)
From Verif Require Import Base GoStr Strconv Pattern Tree TreeSpec Header Router RouterSpec PathClean Ctx CtxFacts Util UtilSpec Content
  TraceSpec Engine EngineSpec ServeTop ServeThms StaticReg Static StaticSpec RedirectFacts HelperSpec HelperLog NetFile FileSpec FileFacts
  ExampleRegexp ExampleRouter ExampleServe PropMiddleware PropBehind PropStatic.
Local Open Scope Z_scope.

(** ** An example: StaticFile at three places, and a static directory without index *)
Definition ax_os (p : gostr) : node gostr gostr :=
  if seqb p (L "web/index.html") || seqb p (L "docs/index.html") then Plain (L "hello")
  else if seqb p (L "docs") || seqb p (L "secret") then Directory p else if seqb p (L "own") then Failed Forbidden else Failed Missing.
Definition ax_list (r : request) (d : gostr) : list (gostr * option gostr) * Z * list gostr := ([], 200, [L "files of "; d]).
Notation ax_file := (net_ServeFile (fun r => L "q=1") fx_serve ax_list).
Definition ax_code (h : handler nat) : prog gostr :=
  match h with
  | HFuncCtx 1%nat => static_file_handler ax_file (L "./web//index.html") ax_os
  | HFuncCtx 2%nat => static_file_handler ax_file (L "docs/") ax_os
  | HFuncCtx 3%nat => static_file_handler ax_file (L "own") ax_os
  | HFuncCtx 4%nat => static_file_handler ax_file (L "gone") ax_os
  | HFuncCtx 5%nat => static_file_handler ax_file (L "secret") ax_os
  | _ => static_handler fx_location fx_page fx_serve ax_file (mkSO [] None 0)
           (fun name => if seqb name (L "secret") then Folder else Absent) ax_os
  end.
Definition ax_ops (pat : gostr) (h : nat) : list (rop nat) := [RNew; RHandle 0 0 pat [IFuncCtx h]].
(** status, Location, Content-Type and body of the reply *)
Definition ax_seen (c : conn gostr) : Z * gostr * gostr * gostr :=
  match rw_sent (cn_rw c) with
  | Some (n, hd) => (n, h_get hd (L "Location"), h_get hd (L "Content-Type"), rw_body (cn_rw c))
  | None => (0, [], [], rw_body (cn_rw c))
  end.
(** a GET request for path is one for the route pat with handler h and for no other;
    it is answered like this *)
Definition ax_serves (pat : gostr) (h : nat) (path : gostr) (a : Z * gostr * gostr * gostr) : Prop :=
  exists e v, engine_of ex_ok (ax_ops pat h) 0 [] e /\ sole_route ex_ok ex_find e v (get path) /\ rt_handlers v = [HFuncCtx h] /\
    (forall n, ~ refused (get path) n) /\
    exists en px c', ServeHTTP ex_find ex_sniff ex_form ax_code e 0 newContext (arrive (get path) no_body) = (en, px, c') /\ ax_seen c' = a.
Lemma ax_engine pat h path a v : with_engine ex_ok (ax_ops pat h) [] (fun e => (routes e, o_static (en_options e),
    let '(en, px, c') := ServeHTTP ex_find ex_sniff ex_form ax_code e 0 newContext (arrive (get path) no_body) in ax_seen c')) = Some ([v], false, a) ->
  rt_handlers v = [HFuncCtx h] -> path <> L "*" -> fits ex_ok ex_find v (get path) -> ax_serves pat h path a.
Proof.
  intros Hw Hh Hp Hf. apply with_engine_split in Hw as (e & He & Hs). apply pair_equal_spec in Hs as [Hs Ha]. apply pair_equal_spec in Hs as [Hr Ho].
  exists e, v. split; [exact He|]. split.
  { split; [rewrite Hr; left|]. split; [done|]. intros u Hu _. rewrite Hr in Hu. by apply elem_of_list_singleton in Hu. }
  split; [done|]. split; [by apply fx_accepted|].
  destruct (ServeHTTP _ _ _ _ e _ _ _) as [[en px] c']. by exists en, px, c'.
Qed.
Ltac ax_fits := split; [reflexivity|]; eexists; split; [apply calc_route_ok; vm_compute; reflexivity|];
  repeat first [apply accepts_last; reflexivity | apply accepts_next; [reflexivity|]].
Ltac ax := eapply ax_engine; [vm_compute; reflexivity|reflexivity|discriminate|ax_fits].

Lemma only_seqp_put hs n out : only (fun o => ~ raw o) (seqp (V:=gostr) (map put_header hs ++ [OWriteHeader n] ++ map OWrite out) (PDo (OWrite (L " end")) (fun _ => PRet))).
Proof.
  induction hs as [|[k [v|]] hs IH]; cbn; try (split; [by intros []|intros _; exact IH]). split; [by intros []|intros _].
  induction out as [|d out IH]; cbn; (split; [by intros []|intros _]); [exact I|exact IH].
Qed.

(** ** C100 *)
(** The reply to every request for a route of StaticFile (or one whose only handler
    calls File), case by case. *)
Theorem C100_replies :
  forall (A V F D : Type) re_ok re_find sniff parse_form (code : handler A -> prog V) raw_query
    (serve : request -> gostr -> gostr -> gostr -> F -> list (gostr * option gostr) * Z * list gostr)
    (listing : request -> D -> list (gostr * option gostr) * Z * list gostr)
    ops r0 opts (e : engine A) id x r body en px c' v h name os,
  (forall r t etag enc f, 100 <= (serve r t etag enc f).1.2 <= 999) -> (forall r d, 100 <= (listing r d).1.2 <= 999) ->
  engine_of re_ok ops r0 opts e -> ServeHTTP re_find sniff parse_form code e id x (arrive r body) = (en, px, c') ->
  (forall n, ~ refused r n) -> sole_route re_ok re_find e v r -> rt_handlers v = [h] ->
  code h = static_file_handler (net_ServeFile raw_query serve listing) name os ->
  en = EDone /\ exists a, file_answer raw_query serve listing r [] [] [] name os a /\
    rw_sent (cn_rw c') = Some (a.1.2, put_headers a.1.1 ∅) /\
    rw_body (cn_rw c') = if bears_body a.1.2 then concat a.2 else [].
Proof. exact @file_served. Qed.
Print Assumptions C100_replies.
(** The cases exclude each other. *)
Theorem C100_one_answer :
  forall (F D : Type) raw_query serve listing r t etag enc name (os : gostr -> node F D) a b,
  file_answer raw_query serve listing r t etag enc name os a -> file_answer raw_query serve listing r t etag enc name os b -> a = b.
Proof. exact @file_answer_unique. Qed.
Print Assumptions C100_one_answer.
Example C100_case :
  ax_serves (L "/home") 1 (L "/home") (200, [], [], L "hello") /\
  ax_serves (L "/docs") 2 (L "/docs") (301, L "docs/?q=1", [], []) /\
  ax_serves (L "/docs") 2 (L "/docs/") (200, [], [], L "hello") /\
  ax_serves (L "/list") 5 (L "/list/") (200, [], [], L "files of secret") /\
  ax_serves (L "/own") 3 (L "/own") (403, [], L "text/plain; charset=utf-8", L "403 Forbidden" ++ [ascii_of_nat 10]) /\
  ax_serves (L "/gone") 4 (L "/gone") (404, [], L "text/plain; charset=utf-8", L "404 page not found" ++ [ascii_of_nat 10]).
Proof. split_and!; ax. Qed.

(** The named file is what a request gets if its path has no .. element and does
    not end in /index.html. *)
Theorem C100_partial :
  forall (A V F D : Type) re_ok re_find sniff parse_form (code : handler A -> prog V) raw_query
    (serve : request -> gostr -> gostr -> gostr -> F -> list (gostr * option gostr) * Z * list gostr)
    (listing : request -> D -> list (gostr * option gostr) * Z * list gostr)
    ops r0 opts (e : engine A) id x r body en px c' v h name os p f,
  (forall r t etag enc f, 100 <= (serve r t etag enc f).1.2 <= 999) -> (forall r d, 100 <= (listing r d).1.2 <= 999) ->
  engine_of re_ok ops r0 opts e -> ServeHTTP re_find sniff parse_form code e id x (arrive r body) = (en, px, c') ->
  (forall n, ~ refused r n) -> sole_route re_ok re_find e v r -> rt_handlers v = [h] ->
  code h = static_file_handler (net_ServeFile raw_query serve listing) name os ->
  opened name p -> os p = Plain f -> ~ dotted (rq_path r) -> ~ ends_in (rq_path r) (L "/index.html") ->
  let '(hs, n, out) := serve r [] [] [] f in
  en = EDone /\ rw_sent (cn_rw c') = Some (n, put_headers hs ∅) /\ rw_body (cn_rw c') = if bears_body n then concat out else [].
Proof.
  intros A V F D re_ok re_find sniff parse_form code raw_query serve listing ops r0 opts e id x r body en px c' v h name os p f
    V1 V2 He H Href Hs Hh Hc Ho Hp Hd Hi.
  destruct (file_served re_ok re_find sniff parse_form code raw_query serve listing _ _ _ _ _ _ _ _ _ _ _ _ _ _ _ V1 V2 He H Href Hs Hh Hc) as (-> & a & Ha & S1 & B1).
  rewrite (file_answer_unique _ _ _ _ _ _ _ _ _ _ _ Ha (fa_file _ _ _ _ _ _ _ _ _ p f (conj Hd Hi) Ho Hp)) in S1, B1.
  destruct (serve r [] [] [] f) as [[hs n] out]. done.
Qed.
Print Assumptions C100_partial.
Example C100_partial_case :
  opened (L "./web//index.html") (L "web/index.html") /\ ax_os (L "web/index.html") = Plain (L "hello") /\
  ~ dotted (L "/home") /\ ~ ends_in (L "/home") (L "/index.html") /\ opened (L "a/b/..") (L "a/b").
Proof.
  split; [exists (L "./web//"), (L "index.html")|]; [split; [|done]|].
  { split; [done|]. split; [apply (bool_decide_eq_false _); by vm_compute|]. right. by exists (L "./web/"). }
  split; [done|]. split; [intros H; apply dotted_spec in H; by vm_compute in H|]. split; [intros H; apply ends_spec in H; by vm_compute in H|].
  exists (L "a/b/"), (L ".."). split; [|done]. split; [done|]. split; [apply (bool_decide_eq_false _); by vm_compute|]. right. by exists (L "a/b").
Qed.
(** A file registered at a path ending in /index.html is never sent: the client is
    redirected to the directory.  Nor is one whose path has a .. element. *)
Theorem C100_index_refuted :
  ax_os (L "web/index.html") = Plain (L "hello") /\
  ax_serves (L "/home") 1 (L "/home") (200, [], [], L "hello") /\
  ax_serves (L "/index.html") 1 (L "/index.html") (301, L "./?q=1", [], []) /\
  ax_serves (L "/any/*") 1 (L "/any/..") (400, [], L "text/plain; charset=utf-8", L "invalid URL path" ++ [ascii_of_nat 10]).
Proof. split; [done|]. split_and!; ax. Qed.
Print Assumptions C100_index_refuted.
(** More generally: no request for such a route gets the file. *)
Theorem C100_index_never :
  forall (A V F D : Type) re_ok re_find sniff parse_form (code : handler A -> prog V) raw_query
    (serve : request -> gostr -> gostr -> gostr -> F -> list (gostr * option gostr) * Z * list gostr)
    (listing : request -> D -> list (gostr * option gostr) * Z * list gostr)
    ops r0 opts (e : engine A) id x r body en px c' v h name os,
  (forall r t etag enc f, 100 <= (serve r t etag enc f).1.2 <= 999) -> (forall r d, 100 <= (listing r d).1.2 <= 999) ->
  engine_of re_ok ops r0 opts e -> ServeHTTP re_find sniff parse_form code e id x (arrive r body) = (en, px, c') ->
  (forall n, ~ refused r n) -> sole_route re_ok re_find e v r -> rt_handlers v = [h] ->
  code h = static_file_handler (net_ServeFile raw_query serve listing) name os ->
  ~ dotted (rq_path r) -> ends_in (rq_path r) (L "/index.html") ->
  exists hd, rw_sent (cn_rw c') = Some (301, hd) /\ rw_body (cn_rw c') = [] /\
    h_values hd (L "Location") = [L "./" ++ if decide (raw_query r = []) then [] else L "?" ++ raw_query r].
Proof.
  intros A V F D re_ok re_find sniff parse_form code raw_query serve listing ops r0 opts e id x r body en px c' v h name os
    V1 V2 He H Href Hs Hh Hc Hd Hi.
  destruct (file_served re_ok re_find sniff parse_form code raw_query serve listing _ _ _ _ _ _ _ _ _ _ _ _ _ _ _ V1 V2 He H Href Hs Hh Hc) as (-> & a & Ha & S1 & B1).
  rewrite (file_answer_unique _ _ _ _ _ _ _ _ _ _ _ Ha (fa_index _ _ _ _ _ _ _ _ _ Hd Hi)) in S1, B1.
  eexists. split; [exact S1|]. split; [exact B1|]. reflexivity.
Qed.
Print Assumptions C100_index_never.
Example C100_index_never_case : ~ dotted (L "/a/index.html") /\ ends_in (L "/a/index.html") (L "/index.html") /\
  ax_serves (L "/a/index.html") 1 (L "/a/index.html") (301, L "./?q=1", [], []).
Proof. split; [intros H; apply dotted_spec in H; by vm_compute in H|]. split; [by exists (L "/a")|]. ax. Qed.

(** ServeFile in a handler anywhere in the chain, if nothing was sent before: the
    same cases, given the headers that were set; the body of later handlers follows. *)
Theorem C100_serve_file_behind :
  forall (A V F D : Type) re_ok re_find sniff parse_form (code : handler A -> prog V) raw_query
    (serve : request -> gostr -> gostr -> gostr -> F -> list (gostr * option gostr) * Z * list gostr)
    (listing : request -> D -> list (gostr * option gostr) * Z * list gostr)
    ops r0 opts (e : engine A) id x r body en px c' name os k i l1 l2,
  (forall r t etag enc f, 100 <= (serve r t etag enc f).1.2 <= 999) -> (forall r d, 100 <= (listing r d).1.2 <= 999) ->
  engine_of re_ok ops r0 opts e -> ServeHTTP re_find sniff parse_form code e id x (arrive r body) = (en, px, c') -> uses_ctx code e ->
  (forall hs, dispatched re_ok re_find e r hs -> exists g, hs !! i = Some g /\ code g = ServeFile raw_query serve listing name os k) ->
  cn_log c' = l1 ++ EvStart i :: l2 -> ~ responded l1 ->
  let h1 := headers_of l1 in
  exists a m l3, file_answer raw_query serve listing r (h_get h1 (L "Content-Type")) (h_get h1 (L "Etag")) (h_get h1 (L "Content-Encoding")) name os a /\
    l2 = m ++ l3 /\ starts m = [] /\ rw_sent (cn_rw c') = Some (a.1.2, put_headers a.1.1 h1) /\
    (bodiless a.1.2 -> rw_body (cn_rw c') = []) /\ (~ bodiless a.1.2 -> rw_body (cn_rw c') = concat a.2 ++ data_of l3).
Proof. exact @serve_file_behind. Qed.
Print Assumptions C100_serve_file_behind.
Example C100_serve_file_behind_case : kx_behind 7 (L "Content-Type") 200 [L "text/html"] (L "list end").
Proof.
  eapply kx_engine with (l6 := kx_log); [vm_compute; reflexivity|reflexivity|by intros Hr; apply Hr|vm_compute; reflexivity|vm_compute; reflexivity|reflexivity|].
  cbn [kx_code]. unfold ServeFile. cbn [only]. repeat (split; [by intros []|intros ?]).
  match goal with |- only _ (deliver false ?y _) => destruct y as [[hs n] out] end. unfold deliver. cbn iota.
  apply only_seqp_put.
Qed.

(** ** C39 *)
(** A static directory without index file (as Static registers it): a request for a
    directory of it, with final slash, lists the directory of that name in the
    working directory of the process. *)
Theorem C39_listing_refuted :
  ax_serves (L "/f/*") 0 (L "/f/secret/") (200, [], [], L "files of secret") /\
  ax_serves (L "/f/*") 0 (L "/f/other/") (404, [], [], []).
Proof. split; ax. Qed.
Print Assumptions C39_listing_refuted.
