(** Properties of HEAD requests. *)
From Verif Require Import Base GoStr Strconv Pattern Tree TreeSpec LastingSpec Header Router RouterSpec PathClean Ctx CtxFacts Util UtilSpec Content
  TraceSpec Engine EngineSpec ServeTop ServeThms ServeMore ParamSpec StaticReg Static StaticSpec NetServe NetFile NetRange NetRedirect FileSpec
  NetHead HeadSpec HeadFacts ExampleRegexp ExampleRouter ExampleServe PropStatic PropCond PropRange.
Local Open Scope Z_scope.

(** ** The example: a static directory, a file, and two handlers with GET and HEAD *)
Definition ew_open (name : gostr) : entry gostr :=
  if seqb name (L "a.txt") then Regular 7 3 (L "a.txt") (L "abc") else if seqb name (L "d") then Folder else Absent.
Definition ew_file := net_ServeFile (fun _ => []) (ev_serve true) ev_list.
Definition ew_code (h : handler nat) : prog gostr :=
  match h with
  | HFuncCtx 1%nat => static_handler (redirect_location (fun _ => None)) (redirect_page_text (fun _ => None)) (ev_serve true) ew_file fx_opts ew_open ev_os
  | HFuncCtx 2%nat => static_file_handler ew_file (L "web/a.txt") ev_os
  | HFuncCtx 3%nat => PDo ORequest (fun r => String_ 200 (h_get (rq_header r) (L "Range")) PRet)
  | HFuncCtx 4%nat => PDo OParams (fun p => match p ≫= (.!! L "id") with Some v => PDo OFullPath (fun u => String_ 200 (u ++ L " " ++ v) PRet) | None => PRet end)
  | HFuncCtx 5%nat => PDo OFullPath (fun u => String_ 200 u PRet)
  | _ => PRet
  end.
Definition ew_ops (pat : gostr) (h : nat) : list (rop nat) := [RNew; RHandle 0 0 pat [IFuncCtx h]; RHandle 0 5 pat [IFuncCtx h]].
Notation ew_run e r := (ServeHTTP ex_find ex_sniff ex_form ew_code e 0 newContext (arrive r no_body)).
(** what the client gets: status, Content-Type, Location, Content-Range, body *)
Definition ew_seen (e : engine nat) (r : request) : Z * gostr * gostr * gostr * gostr :=
  let '(n, hd, out) := net_client ex_sniff r (cn_rw (ew_run e r).2) in
  (n, h_get hd (L "Content-Type"), h_get hd (L "Location"), h_get hd (L "Content-Range"), out).
(** the route of the method, alone *)
Definition ew_route (e : engine nat) (pat : gostr) (h : nat) (r : request) : Prop :=
  exists v, sole_route ex_ok ex_find e v r /\ rt_variant v = pat /\ rt_uri v = pat /\ rt_handlers v = [HFuncCtx h].
Definition ew_case (pat : gostr) (h : nat) (r : request) (a b : Z * gostr * gostr * gostr * gostr) : Prop :=
  exists e, engine_of ex_ok (ew_ops pat h) 0 [] e /\ ew_route e pat h r /\ ew_route e pat h (with_method (L "HEAD") r) /\
    ew_seen e r = a /\ ew_seen e (with_method (L "HEAD") r) = b.
Lemma ew_holds pat h r a b v w :
  with_engine ex_ok (ew_ops pat h) [] (fun e => (routes e, ew_seen e r, ew_seen e (with_method (L "HEAD") r))) = Some ([v; w], a, b) ->
  rq_method r = L "GET" -> rt_method v = L "GET" -> rt_method w = L "HEAD" -> rt_variant v = pat -> rt_variant w = pat -> rt_uri v = pat -> rt_uri w = pat ->
  rt_handlers v = [HFuncCtx h] -> rt_handlers w = [HFuncCtx h] ->
  (exists q, uri_route ex_ok pat q /\ route_accepts ex_find q (path_segs (rq_path r))) -> ew_case pat h r a b.
Proof.
  intros Hw Hm Hv1 Hw1 Hv2 Hw2 Hv4 Hw4 Hv3 Hw3 Hq. apply with_engine_split in Hw as (e & He & Hs).
  apply pair_equal_spec in Hs as [Hs Hb]. apply pair_equal_spec in Hs as [Hr Ha].
  exists e. split; [exact He|]. split; [|split; [|split; [exact Ha|exact Hb]]].
  - exists v. split; [|done]. split; [rewrite Hr; left|]. split; [split; [congruence|by rewrite Hv2]|].
    intros u Hu Hf. rewrite Hr in Hu. apply elem_of_cons in Hu as [->|Hu]; [done|]. apply elem_of_list_singleton in Hu as ->.
    destruct Hf as [[Hf _]|(_ & Hf & _)]; rewrite Hw1, Hm in Hf; vm_compute in Hf; discriminate.
  - exists w. split; [|done]. split; [rewrite Hr; right; left|]. split; [split; [done|by rewrite Hw2]|].
    intros u Hu Hf. rewrite Hr in Hu. apply elem_of_cons in Hu as [->|Hu]; [|by apply elem_of_list_singleton in Hu].
    destruct Hf as [[Hf _]|(_ & Hf & _)]; rewrite Hv1 in Hf; vm_compute in Hf; discriminate.
Qed.
Ltac ew := eapply ew_holds; [vm_compute; reflexivity|reflexivity..|]; eexists; split; [apply calc_route_ok; vm_compute; reflexivity|];
  repeat first [apply accepts_last; reflexivity | apply accepts_next; [reflexivity|] | apply accepts_rest; [reflexivity|]].

(** ** C110 *)
(** Static, StaticAdvance: for every directory and every path below the route, whether
    file, directory or nothing, and whatever the request's headers are, HEAD gets the
    status and the headers that GET gets, and no content.  This is with http.Redirect,
    http.ServeContent and http.ServeFile as they are in Go; the files do not change
    between the two requests, and the list of a directory is the same for both. *)
Theorem C110_static :
  forall (F : Type) parse_time (modtime : F -> option Z) http_date strict content ctype bnd (D : Type) raw_query
    (listing : request -> D -> list (gostr * option gostr) * Z * list gostr)
    (A V : Type) re_ok re_find sniff parse_form (code : handler A -> prog V) parseAuthority page,
  (forall r d, 100 <= (listing r d).1.2 <= 999) ->
  let serve := net_serve parse_time modtime http_date (net_send strict content ctype bnd) in
  let serve_file := net_ServeFile raw_query serve listing in
  forall ops r0 opts e id id' x x' r body body' en en' px px' c c' v v' h h' pre o open os,
  engine_of re_ok ops r0 opts e -> ServeHTTP re_find sniff parse_form code e id x (arrive r body) = (en, px, c) ->
  ServeHTTP re_find sniff parse_form code e id' x' (arrive (with_method (L "HEAD") r) body') = (en', px', c') ->
  rq_method r = L "GET" -> (forall n, ~ refused r n) ->
  raw_query (with_method (L "HEAD") r) = raw_query r -> (forall d, listing (with_method (L "HEAD") r) d = listing r d) ->
  sole_route re_ok re_find e v r -> sole_route re_ok re_find e v' (with_method (L "HEAD") r) ->
  Forall literal_seg pre -> rt_variant v = slashed (pre ++ [L "*"]) -> rt_variant v' = slashed (pre ++ [L "*"]) ->
  rt_handlers v = [h] -> rt_handlers v' = [h'] ->
  code h = static_handler (redirect_location parseAuthority) page serve serve_file o open os ->
  code h' = static_handler (redirect_location parseAuthority) page serve serve_file o open os ->
  exists n hd out, net_client sniff r (cn_rw c) = (n, hd, out) /\ net_client sniff (with_method (L "HEAD") r) (cn_rw c') = (n, hd, []).
Proof. exact @static_head. Qed.
Print Assumptions C110_static.
Example C110_static_case :
  ew_case (L "/f/*") 1 (ev_req (L "/f/a.txt") (L "bytes=1-")) (206, L "text/plain", [], L "bytes 1-2/3", L "bc") (206, L "text/plain", [], L "bytes 1-2/3", []) /\
  ew_case (L "/f/*") 1 (ev_req (L "/f/a.txt") []) (200, L "text/plain", [], [], L "abc") (200, L "text/plain", [], [], []) /\
  ew_case (L "/f/*") 1 (ev_req (L "/f/d") [])
    (302, L "text/html; charset=utf-8", L "/f/d/", [], L "<a href=""/f/d/"">Found</a>." ++ [ascii_of_nat 10; ascii_of_nat 10])
    (302, L "text/html; charset=utf-8", L "/f/d/", [], []) /\
  ew_case (L "/f/*") 1 (ev_req (L "/f/none") []) (404, [], [], [], []) (404, [], [], [], []).
Proof. split_and!; ew. Qed.
Print Assumptions C110_static_case.

(** The same for StaticFile, and for other routes whose only handler calls File. *)
Theorem C110_static_file :
  forall (F : Type) parse_time (modtime : F -> option Z) http_date strict content ctype bnd (D : Type) raw_query
    (listing : request -> D -> list (gostr * option gostr) * Z * list gostr)
    (A V : Type) re_ok re_find sniff parse_form (code : handler A -> prog V),
  (forall r d, 100 <= (listing r d).1.2 <= 999) ->
  let serve := net_serve parse_time modtime http_date (net_send strict content ctype bnd) in
  let serve_file := net_ServeFile raw_query serve listing in
  forall ops r0 opts e id id' x x' r body body' en en' px px' c c' v v' h h' name os,
  engine_of re_ok ops r0 opts e -> ServeHTTP re_find sniff parse_form code e id x (arrive r body) = (en, px, c) ->
  ServeHTTP re_find sniff parse_form code e id' x' (arrive (with_method (L "HEAD") r) body') = (en', px', c') ->
  rq_method r = L "GET" -> (forall n, ~ refused r n) ->
  raw_query (with_method (L "HEAD") r) = raw_query r -> (forall d, listing (with_method (L "HEAD") r) d = listing r d) ->
  sole_route re_ok re_find e v r -> sole_route re_ok re_find e v' (with_method (L "HEAD") r) ->
  rt_handlers v = [h] -> rt_handlers v' = [h'] -> code h = static_file_handler serve_file name os -> code h' = static_file_handler serve_file name os ->
  exists n hd out, net_client sniff r (cn_rw c) = (n, hd, out) /\ net_client sniff (with_method (L "HEAD") r) (cn_rw c') = (n, hd, []).
Proof. exact @file_head. Qed.
Print Assumptions C110_static_file.
Example C110_static_file_case :
  ew_case (L "/home") 2 (ev_req (L "/home") []) (200, L "text/plain", [], [], L "abc") (200, L "text/plain", [], [], []).
Proof. ew. Qed.

(** Other routes: if both requests go to the same handlers and these look neither at
    the method nor at Params and FullPath, HEAD gets the status and headers of GET;
    whether they panic does not differ either. *)
Theorem C110_handlers_partial :
  forall (A V : Type) re_ok re_find sniff parse_form (code : handler A -> prog V) ops r0 opts e id id' x x' r body en en' px px' c c' hs,
  engine_of re_ok ops r0 opts e -> ServeHTTP re_find sniff parse_form code e id x (arrive r body) = (en, px, c) ->
  ServeHTTP re_find sniff parse_form code e id' x' (arrive (with_method (L "HEAD") r) body) = (en', px', c') ->
  rq_method r = L "GET" -> (forall b d, parse_form b (with_method (L "HEAD") r) d = parse_form b r d) -> (forall n, ~ refused r n) ->
  (forall hs', dispatched re_ok re_find e r hs' <-> hs' = hs) -> (forall hs', dispatched re_ok re_find e (with_method (L "HEAD") r) hs' <-> hs' = hs) ->
  (forall h, h ∈ hs -> method_blind (code h) /\ only param_free (code h) /\ only path_free (code h)) ->
  en = en' /\ exists n hd out, net_client sniff r (cn_rw c) = (n, hd, out) /\ net_client sniff (with_method (L "HEAD") r) (cn_rw c') = (n, hd, []).
Proof.
  intros A V re_ok re_find sniff parse_form code ops r0 opts e id id' x x' r body en en' px px' c c' hs He H1 H2 Hm Hf Href Hd1 Hd2 Hb.
  destruct (head_blind _ _ _ _ _ _ _ _ _ _ _ _ _ _ _ _ _ _ _ _ _ _ He H1 H2 Hm Hf Href Hd1 Hd2 Hb) as [-> Hw]. split; [done|].
  unfold net_client. rewrite Hw, Hm. destruct (finish sniff (cn_rw c')) as [[n hd] out]. by exists n, hd, out.
Qed.
Print Assumptions C110_handlers_partial.
Example C110_handlers_partial_case :
  ew_case (L "/x") 3 (ev_req (L "/x") (L "hello")) (200, ex_sniff [], [], [], L "hello") (200, ex_sniff [], [], [], []) /\
  method_blind (ew_code (HFuncCtx 3%nat)) /\ only param_free (ew_code (HFuncCtx 3%nat)) /\ only path_free (ew_code (HFuncCtx 3%nat)) /\
  (forall e pat h r hs, ew_route e pat h r -> dispatched ex_ok ex_find e r hs <-> hs = [HFuncCtx h]).
Proof.
  split; [ew|]. split; [by cbn|]. split; [by cbn|]. split; [by cbn|].
  intros e pat h r hs (v & Hs & _ & _ & Hh). split.
  - intros Hd. rewrite (FileFacts.sole_dispatched _ _ _ _ _ _ Hs Hd). done.
  - intros ->. rewrite <- Hh. destruct Hs as (Hv & Hf & _). apply dis_route; [done|apply Hf|by left].
Qed.

(** Where each request has one route, the handlers may use FullPath. *)
Theorem C110_route_partial :
  forall (A V : Type) re_ok re_find sniff parse_form (code : handler A -> prog V) ops r0 opts e id id' x x' r body en en' px px' c c' v v',
  engine_of re_ok ops r0 opts e -> ServeHTTP re_find sniff parse_form code e id x (arrive r body) = (en, px, c) ->
  ServeHTTP re_find sniff parse_form code e id' x' (arrive (with_method (L "HEAD") r) body) = (en', px', c') ->
  rq_method r = L "GET" -> (forall b d, parse_form b (with_method (L "HEAD") r) d = parse_form b r d) -> (forall n, ~ refused r n) ->
  sole_route re_ok re_find e v r -> sole_route re_ok re_find e v' (with_method (L "HEAD") r) ->
  rt_handlers v = rt_handlers v' -> rt_uri v = rt_uri v' ->
  (forall h, h ∈ rt_handlers v -> method_blind (code h) /\ only param_free (code h)) ->
  en = en' /\ exists n hd out, net_client sniff r (cn_rw c) = (n, hd, out) /\ net_client sniff (with_method (L "HEAD") r) (cn_rw c') = (n, hd, []).
Proof.
  intros A V re_ok re_find sniff parse_form code ops r0 opts e id id' x x' r body en en' px px' c c' v v' He H1 H2 Hm Hf Href Hs Hs' Hh Hu Hb.
  destruct (head_blind_route _ _ _ _ _ _ _ _ _ _ _ _ _ _ _ _ _ _ _ _ _ _ _ He H1 H2 Hm Hf Href Hs Hs' Hh Hu Hb) as [-> Hw].
  split; [done|]. unfold net_client. rewrite Hw, Hm. destruct (finish sniff (cn_rw c')) as [[n hd] out]. by exists n, hd, out.
Qed.
Print Assumptions C110_route_partial.
Example C110_route_partial_case :
  ew_case (L "/x") 5 (ev_req (L "/x") []) (200, ex_sniff [], [], [], L "/x") (200, ex_sniff [], [], [], []) /\
  method_blind (ew_code (HFuncCtx 5%nat)) /\ only param_free (ew_code (HFuncCtx 5%nat)).
Proof. split; [ew|]. by cbn. Qed.

(** They may use Params as well where these are exact: routes with variable segments,
    in tables without inner regular expressions. *)
Theorem C110_params_partial :
  forall (A V : Type) re_ok re_find sniff parse_form (code : handler A -> prog V) ops r0 opts e id id' x x' r body en en' px px' c c' v v' tbl tbl' p,
  engine_of re_ok ops r0 opts e -> ServeHTTP re_find sniff parse_form code e id x (arrive r body) = (en, px, c) ->
  ServeHTTP re_find sniff parse_form code e id' x' (arrive (with_method (L "HEAD") r) body) = (en', px', c') ->
  rq_method r = L "GET" -> (forall b d, parse_form b (with_method (L "HEAD") r) d = parse_form b r d) -> (forall n, ~ refused r n) ->
  sole_route re_ok re_find e v r -> sole_route re_ok re_find e v' (with_method (L "HEAD") r) ->
  rt_handlers v = rt_handlers v' -> rt_uri v = rt_uri v' -> uri_route re_ok (rt_variant v) p -> uri_route re_ok (rt_variant v') p ->
  ~ literal re_ok v -> ~ literal re_ok v' ->
  method_table re_ok e (L "GET") tbl -> method_table re_ok e (L "HEAD") tbl' -> no_inner_regexp tbl -> no_inner_regexp tbl' -> NoDup (route_names 0 p) ->
  (forall h, h ∈ rt_handlers v -> method_blind (code h)) ->
  en = en' /\ exists n hd out, net_client sniff r (cn_rw c) = (n, hd, out) /\ net_client sniff (with_method (L "HEAD") r) (cn_rw c') = (n, hd, []).
Proof.
  intros A V re_ok re_find sniff parse_form code ops r0 opts e id id' x x' r body en en' px px' c c' v v' tbl tbl' p
    He H1 H2 Hm Hf Href Hs Hs' Hh Hu Hp Hp' Hl Hl' Ht Ht' Hr Hr' Hnd Hb.
  destruct (head_blind_params _ _ _ _ _ _ _ _ _ _ _ _ _ _ _ _ _ _ _ _ _ _ _ _ _ _ He H1 H2 Hm Hf Href Hs Hs' Hh Hu Hp Hp' Hl Hl' Ht Ht' Hr Hr' Hnd Hb) as [-> Hw].
  split; [done|]. unfold net_client. rewrite Hw, Hm. destruct (finish sniff (cn_rw c')) as [[n hd] out]. by exists n, hd, out.
Qed.
Print Assumptions C110_params_partial.
Example C110_params_partial_case :
  ew_case (L "/u/<id>") 4 (ev_req (L "/u/ab") []) (200, ex_sniff [], [], [], L "/u/<id> ab") (200, ex_sniff [], [], [], []) /\
  (exists p, uri_route ex_ok (L "/u/<id>") p /\ no_inner_regexp [p] /\ NoDup (route_names 0 p) /\ ~ Forall (fun s => p_typ s = PStatic) p) /\
  method_blind (ew_code (HFuncCtx 4%nat)).
Proof.
  split; [ew|]. split; [|cbn; split; [done|]; intros p; by destruct (p ≫= _)].
  eexists. split; [apply calc_route_ok; vm_compute; reflexivity|]. split; [|split].
  - intros r c p t Hr E Ht. apply elem_of_list_singleton in Hr as ->.
    destruct c as [|c1 [|c2 c]]; [injection E as <- <-; discriminate|injection E as _ _ E; congruence|].
    injection E as _ _ E. by destruct c.
  - apply (bool_decide_eq_true _). vm_compute. reflexivity.
  - intros H. inversion H as [|? ? _ H2]. inversion H2 as [|? ? H3 _]. discriminate.
Qed.
