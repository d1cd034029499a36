(** Properties of static file routes. *)
From Verif Require Import Base GoStr Strconv Pattern Tree TreeSpec Header Router RouterSpec PathClean Ctx Util UtilSpec Content
  UtilFacts TraceSpec Engine EngineSpec StaticReg Static StaticSpec StaticFacts StaticTop StaticPaths ExampleRegexp ExampleRouter ExampleServe.
Local Open Scope Z_scope.

(** ** An example: one file, one directory *)
Definition fx_open (name : gostr) : entry gostr :=
  if seqb name (L "a.txt") then Regular 7 3 (L "a.txt") (L "abc")
  else if seqb name (L "dir") || seqb name (L "/etc") || seqb name (L "a?b") then Folder else Absent.
Definition fx_opts : static_opts := mkSO (L "index.html") None 1.
Definition fx_location (r : request) (u : gostr) : gostr := net_location u.
Definition fx_page (r : request) (u : gostr) (n : Z) : gostr := L "moved".
Definition fx_serve (r : request) (t etag enc f : gostr) : list (gostr * option gostr) * Z * list gostr := ([], 200, [f]).
(** the process sees the path and the state of its own file system *)
Definition fx_file (r : request) (t etag enc path os : gostr) : list (gostr * option gostr) * Z * list gostr := ([], 200, [path; os]).
Definition fx_code (os : gostr) (h : handler nat) : prog gostr :=
  static_handler fx_location fx_page fx_serve fx_file fx_opts fx_open os.
Definition fx_ops : list (rop nat) := [RNew; RHandle 0 0 (L "/f/*") [IFuncCtx 1%nat]; RHandle 0 5 (L "/f/*") [IFuncCtx 1%nat]].
Notation fx_run os e path :=
  (ServeHTTP ex_find ex_sniff ex_form (fx_code os) e 0 newContext (arrive (get path) no_body)).
(** a GET request for a path below /f is for the static route and for no other *)
Lemma fx_engine : exists e v, engine_of ex_ok fx_ops 0 [] e /\ routes e !! 0%nat = Some v /\
  rt_variant v = slashed ([L "f"] ++ [L "*"]) /\ rt_handlers v = [HFuncCtx 1%nat] /\
  (forall path rest, path_segs path = L "f" :: rest -> rest <> [] -> sole_route ex_ok ex_find e v (get path)).
Proof.
  edestruct (with_engine_split ex_ok fx_ops [] (fun e => (routes e, o_static (en_options e)))) as (e & He & Hs); [vm_compute; reflexivity|].
  injection Hs as Hs Ho. exists e. eexists. split; [done|]. rewrite Hs. split; [reflexivity|]. split; [reflexivity|]. split; [reflexivity|].
  intros path rest Hp Hne. split; [rewrite Hs; left|]. split.
  - split; [reflexivity|]. eexists. split; [apply calc_route_ok; vm_compute; reflexivity|]. cbn [get rq_path]. rewrite Hp.
    apply accepts_next; [reflexivity|]. destruct rest as [|s [|s' rest]]; [done|by apply accepts_last|by apply accepts_rest].
  - intros u Hu [(Hm & _)|(Hv & _)]; [|congruence]. rewrite Hs in Hu.
    apply elem_of_cons in Hu as [->|Hu]; [done|]. apply elem_of_list_singleton in Hu as ->. discriminate Hm.
Qed.
Lemma fx_literal : Forall literal_seg [L "f"].
Proof.
  constructor; [|constructor]. split_and!; try done.
  1: split_and!; try done.
  all: try (apply (bool_decide_eq_false _); by vm_compute).
Qed.
Lemma fx_accepted path : path <> L "*" -> forall n, ~ refused (get path) n.
Proof.
  intros Hp n [[H|[H|H]]|_ H]; [destruct H as [H|[_ H]]; discriminate H|exact (Hp H)|discriminate H|].
  apply H. left.
Qed.
Lemma fx_serve_valid : forall r t etag enc f, proper_code (fx_serve r t etag enc f).1.2 = true.
Proof. reflexivity. Qed.
Lemma fx_file_valid : forall r t etag enc p os, proper_code (fx_file r t etag enc p os).1.2 = true.
Proof. reflexivity. Qed.

(** ** C39 *)
(** The replies of a static route, case by case. *)
Theorem C39_replies :
  forall (A V F O : Type) re_ok re_find sniff parse_form (code : handler A -> prog V) location page
    (serve : request -> gostr -> gostr -> gostr -> F -> list (gostr * option gostr) * Z * list gostr)
    (serve_file : request -> gostr -> gostr -> gostr -> gostr -> O -> list (gostr * option gostr) * Z * list gostr),
  (forall r t etag enc f, proper_code (serve r t etag enc f).1.2 = true) ->
  (forall r t etag enc p os, proper_code (serve_file r t etag enc p os).1.2 = true) ->
  forall ops r0 opts (e : engine A) id x r body en px c' v pre h o open os,
  engine_of re_ok ops r0 opts e -> ServeHTTP re_find sniff parse_form code e id x (arrive r body) = (en, px, c') ->
  (forall n, ~ refused r n) -> sole_route re_ok re_find e v r ->
  Forall literal_seg pre -> rt_variant v = slashed (pre ++ [L "*"]) ->
  rt_handlers v = [h] -> code h = static_handler location page serve serve_file o open os ->
  rq_method r = L "GET" \/ rq_method r = L "HEAD" ->
  exists name, file_name pre r name /\ en = EDone /\
    exists a, static_reply location page serve serve_file o (open name) os name r a /\
      rw_sent (cn_rw c') = Some (a.1.1, a.1.2) /\ rw_body (cn_rw c') = a.2.
Proof. exact @static_served. Qed.
Print Assumptions C39_replies.
(** The prefix of a call of StaticAdvance or Static. *)
Theorem C39_pattern :
  forall prefix, filepath_Join [static_prefix prefix; L "/*"] = slashed (walk [] (split_byte "/" prefix) ++ [L "*"]).
Proof. exact static_registered. Qed.
Print Assumptions C39_pattern.
(** Except for directories asked for with a final slash, the reply depends on the
    configured file system only, and there on the requested name only. *)
Theorem C39_file_system_partial :
  forall (A V F O : Type) re_ok re_find sniff parse_form location page
    (serve : request -> gostr -> gostr -> gostr -> F -> list (gostr * option gostr) * Z * list gostr)
    (serve_file : request -> gostr -> gostr -> gostr -> gostr -> O -> list (gostr * option gostr) * Z * list gostr)
    (code code' : handler A -> prog V) ops r0 opts (e : engine A) id x r body en px c' en' px' c2 v pre h o open os open' os' name,
  (forall r t etag enc f, proper_code (serve r t etag enc f).1.2 = true) ->
  (forall r t etag enc p os, proper_code (serve_file r t etag enc p os).1.2 = true) ->
  engine_of re_ok ops r0 opts e ->
  ServeHTTP re_find sniff parse_form code e id x (arrive r body) = (en, px, c') ->
  ServeHTTP re_find sniff parse_form code' e id x (arrive r body) = (en', px', c2) -> (forall n, ~ refused r n) ->
  sole_route re_ok re_find e v r -> Forall literal_seg pre -> rt_variant v = slashed (pre ++ [L "*"]) ->
  rt_handlers v = [h] ->
  code h = static_handler location page serve serve_file o open os ->
  code' h = static_handler location page serve serve_file o open' os' ->
  rq_method r = L "GET" \/ rq_method r = L "HEAD" ->
  file_name pre r name -> open name = open' name ->
  (open name = Folder -> has_suffix (L "/") (rq_path r) = false /\ Clean (rq_path r) <> L "/") ->
  rw_sent (cn_rw c') = rw_sent (cn_rw c2) /\ rw_body (cn_rw c') = rw_body (cn_rw c2).
Proof. exact @same_origin. Qed.
Print Assumptions C39_file_system_partial.
(** For those the reply depends on the file system of the process: the path is
    taken relative to its working directory, or even as an absolute path. *)
Theorem C39_file_system_refuted :
  exists e v, engine_of ex_ok fx_ops 0 [] e /\ sole_route ex_ok ex_find e v (get (L "/f/dir/")) /\
    sole_route ex_ok ex_find e v (get (L "/f//etc/")) /\
    seen3 (fx_run (L " 1") e (L "/f/dir/")) = (EDone, 200, L "dir/index.html 1", [0%nat]) /\
    seen3 (fx_run (L " 2") e (L "/f/dir/")) = (EDone, 200, L "dir/index.html 2", [0%nat]) /\
    seen3 (fx_run (L " 1") e (L "/f//etc/")) = (EDone, 200, L "/etc/index.html 1", [0%nat]).
Proof.
  destruct fx_engine as (e & v & He & _ & _ & _ & Hsole). exists e, v. split; [done|].
  split; [by eapply Hsole; [vm_compute; reflexivity|]|]. split; [by eapply Hsole; [vm_compute; reflexivity|]|].
  assert ((seen3 (fx_run (L " 1") e (L "/f/dir/")), seen3 (fx_run (L " 2") e (L "/f/dir/")), seen3 (fx_run (L " 1") e (L "/f//etc/"))) =
    ((EDone, 200, L "dir/index.html 1", [0%nat]), (EDone, 200, L "dir/index.html 2", [0%nat]), (EDone, 200, L "/etc/index.html 1", [0%nat]))) as E.
  { eapply (with_engine_fun ex_ok fx_ops [] (fun e => (seen3 (fx_run (L " 1") e (L "/f/dir/")),
      seen3 (fx_run (L " 2") e (L "/f/dir/")), seen3 (fx_run (L " 1") e (L "/f//etc/"))))); [vm_compute; reflexivity|exact He]. }
  injection E as E1 E2 E3. done.
Qed.
Print Assumptions C39_file_system_refuted.
Example C39_case :
  exists e v, engine_of ex_ok fx_ops 0 [] e /\ sole_route ex_ok ex_find e v (get (L "/f/a.txt")) /\
    rt_variant v = slashed ([L "f"] ++ [L "*"]) /\ rt_handlers v = [HFuncCtx 1%nat] /\ Forall literal_seg [L "f"] /\
    (forall n, ~ refused (get (L "/f/a.txt")) n) /\ file_name [L "f"] (get (L "/f/a.txt")) (L "a.txt") /\
    seen3 (fx_run [] e (L "/f/a.txt")) = (EDone, 200, L "abc", [0%nat]).
Proof.
  destruct fx_engine as (e & v & He & _ & Hv & Hh & Hsole). exists e, v. split; [done|].
  split; [by eapply Hsole; [vm_compute; reflexivity|]|]. split; [done|]. split; [done|]. split; [exact fx_literal|].
  split; [by apply fx_accepted|]. split; [by exists [L "a.txt"]|].
  apply (with_engine_fun ex_ok fx_ops [] (fun e => seen3 (fx_run [] e (L "/f/a.txt"))) _ e); [vm_compute; reflexivity|exact He].
Qed.
Example C39_pattern_case :
  filepath_Join [static_prefix (L "a//b/../c/"); L "/*"] = L "/a/c/*" /\ walk [] (split_byte "/" (L "a//b/../c/")) = [L "a"; L "c"].
Proof. done. Qed.

(** ** C40 *)
(** If-None-Match with the current tag: 304 and no content.  Any other request gets
    what http.ServeContent makes of the file; the header ETag is the tag unless
    ServeContent itself changes that header. *)
Theorem C40_tags_partial :
  forall (A V F O : Type) re_ok re_find sniff parse_form (code : handler A -> prog V) location page
    (serve : request -> gostr -> gostr -> gostr -> F -> list (gostr * option gostr) * Z * list gostr)
    (serve_file : request -> gostr -> gostr -> gostr -> gostr -> O -> list (gostr * option gostr) * Z * list gostr),
  (forall r t etag enc f, proper_code (serve r t etag enc f).1.2 = true) ->
  (forall r t etag enc p os, proper_code (serve_file r t etag enc p os).1.2 = true) ->
  forall ops r0 opts (e : engine A) id x r body en px c' v pre h o open os name mtime size base f,
  engine_of re_ok ops r0 opts e -> ServeHTTP re_find sniff parse_form code e id x (arrive r body) = (en, px, c') ->
  (forall n, ~ refused r n) -> sole_route re_ok re_find e v r ->
  Forall literal_seg pre -> rt_variant v = slashed (pre ++ [L "*"]) ->
  rt_handlers v = [h] -> code h = static_handler location page serve serve_file o open os ->
  rq_method r = L "GET" \/ rq_method r = L "HEAD" ->
  file_name pre r name -> open name = Regular mtime size base f -> so_etag o <> 0%nat ->
  let tag := file_tag (so_etag o) mtime size base in
  let '(hs, n, out) := serve r [] tag [] f in
  exists hd,
    (h_get (rq_header r) (L "If-None-Match") = tag ->
       rw_sent (cn_rw c') = Some (304, hd) /\ h_get hd (L "Etag") = tag /\ rw_body (cn_rw c') = []) /\
    (h_get (rq_header r) (L "If-None-Match") <> tag ->
       rw_sent (cn_rw c') = Some (n, hd) /\
       ((forall kv, kv ∈ hs -> canon kv.1 <> L "Etag") -> h_get hd (L "Etag") = tag) /\
       rw_body (cn_rw c') = if bears_body n then concat out else []).
Proof. exact @tag_reply. Qed.
Print Assumptions C40_tags_partial.
(** The tag tells versions of a file apart: by time and size, and for every kind
    but the first by name too. *)
Theorem C40_tag_identifies :
  forall kind mtime size base mtime' size' base',
  file_tag kind mtime size base = file_tag kind mtime' size' base' <->
  mtime = mtime' /\ size = size' /\ (kind = 1%nat \/ base = base').
Proof.
  intros kind m s b m' s' b'. unfold file_tag. split.
  - destruct kind as [|[|k]]; intros E.
    + apply etag2_inj in E as (-> & -> & ->). auto.
    + apply etag_inj in E as (-> & ->). auto.
    + apply etag2_inj in E as (-> & -> & ->). auto.
  - intros (-> & -> & [->| ->]); done.
Qed.
Print Assumptions C40_tag_identifies.
(** the tag of the example, with and without the header *)
Definition fx_cond (path tag : gostr) : request :=
  mkReq (L "GET") 1 1 path path {[ L "If-None-Match" := [tag] ]} (L "192.0.2.1:9") false.
Example C40_case :
  exists e, engine_of ex_ok fx_ops 0 [] e /\ fx_open (L "a.txt") = Regular 7 3 (L "a.txt") (L "abc") /\
    file_tag (so_etag fx_opts) 7 3 (L "a.txt") = L "7-3" /\
    seen3 (ServeHTTP ex_find ex_sniff ex_form (fx_code []) e 0 newContext (arrive (fx_cond (L "/f/a.txt") (L "7-3")) no_body)) =
      (EDone, 304, [], [0%nat]) /\
    seen3 (ServeHTTP ex_find ex_sniff ex_form (fx_code []) e 0 newContext (arrive (fx_cond (L "/f/a.txt") (L "7-4")) no_body)) =
      (EDone, 200, L "abc", [0%nat]).
Proof.
  edestruct (with_engine_split ex_ok fx_ops [] (fun e =>
    (seen3 (ServeHTTP ex_find ex_sniff ex_form (fx_code []) e 0 newContext (arrive (fx_cond (L "/f/a.txt") (L "7-3")) no_body)),
     seen3 (ServeHTTP ex_find ex_sniff ex_form (fx_code []) e 0 newContext (arrive (fx_cond (L "/f/a.txt") (L "7-4")) no_body))))) as (e & He & Hs);
    [vm_compute; reflexivity|].
  injection Hs as E1 E2. exists e. split_and!; done.
Qed.

(** But the time in a tag is in seconds: a file that is changed within the second and
    keeps its size keeps its tag, and a client with the old content is told that it
    is current. *)
Definition fx_at (ns : Z) (content : gostr) (name : gostr) : entry gostr :=
  if seqb name (L "a.txt") then Regular (unix_second ns) (Z.of_nat (length content)) name content else Absent.
Definition fx_code_at ns content (h : handler nat) : prog gostr :=
  static_handler fx_location fx_page fx_serve fx_file fx_opts (fx_at ns content) (@nil ascii).
Definition fx_ask e ns content (r : request) : Z * gostr * gostr :=
  let '(_, _, c) := ServeHTTP ex_find ex_sniff ex_form (fx_code_at ns content) e 0 newContext (arrive r no_body) in
  match rw_sent (cn_rw c) with Some (n, h) => (n, h_get h (L "Etag"), rw_body (cn_rw c)) | None => (0, [], []) end.
Theorem C40_same_second_refuted :
  exists e T t t', engine_of ex_ok fx_ops 0 [] e /\ t < t' /\
    fx_ask e t (L "old") (get (L "/f/a.txt")) = (200, T, L "old") /\
    fx_ask e t' (L "new") (get (L "/f/a.txt")) = (200, T, L "new") /\
    fx_ask e t' (L "new") (fx_cond (L "/f/a.txt") T) = (304, T, []).
Proof.
  destruct fx_engine as (e & v & He & _). exists e, (L "1-3"), 1200300400, 1900300400. split; [done|]. split; [lia|].
  assert ((fx_ask e 1200300400 (L "old") (get (L "/f/a.txt")), fx_ask e 1900300400 (L "new") (get (L "/f/a.txt")),
    fx_ask e 1900300400 (L "new") (fx_cond (L "/f/a.txt") (L "1-3"))) = ((200, L "1-3", L "old"), (200, L "1-3", L "new"), (304, L "1-3", []))) as H.
  { apply (with_engine_fun ex_ok fx_ops [] (fun e => (fx_ask e 1200300400 (L "old") (get (L "/f/a.txt")), fx_ask e 1900300400 (L "new") (get (L "/f/a.txt")),
      fx_ask e 1900300400 (L "new") (fx_cond (L "/f/a.txt") (L "1-3")))) _ e); [vm_compute; reflexivity|exact He]. }
  apply pair_equal_spec in H as [H H3]. apply pair_equal_spec in H as [H1 H2]. exact (conj H1 (conj H2 H3)).
Qed.
Print Assumptions C40_same_second_refuted.
(** and that is the only case, for a file that stays where it is: *)
Theorem C40_other_second_partial :
  forall kind t size base t' size', (unix_second t <> unix_second t' \/ size <> size') ->
  file_tag kind (unix_second t) size base <> file_tag kind (unix_second t') size' base.
Proof. intros kind t size base t' size' H E. apply C40_tag_identifies in E as (H1 & H2 & _). by destruct H. Qed.
Print Assumptions C40_other_second_partial.

(** ** C61 *)
(** A file is delivered behind the back of the Context: it is sent, and Written()
    and Status() still say that nothing was. *)
Theorem C61_unreported_refuted :
  forall (A V F O : Type) sniff parse_form location page
    (serve : request -> gostr -> gostr -> gostr -> F -> list (gostr * option gostr) * Z * list gostr)
    (serve_file : request -> gostr -> gostr -> gostr -> gostr -> O -> list (gostr * option gostr) * Z * list gostr)
    next (o : static_opts) open os (x : ctxobj A V) (c : conn V) (m : Params) name mtime size base f hs n out,
  x_params x = Some m -> m !! L "*0" = Some name -> open name = Regular mtime size base f ->
  rw_sent (cn_rw c) = None ->
  (so_etag o <> 0%nat -> h_get (rq_header (cn_req c)) (L "If-None-Match") <> file_tag (so_etag o) mtime size base) ->
  let h := announced_on o mtime size base (rw_hdr (cn_rw c)) in
  serve (cn_req c) (h_get h (L "Content-Type")) (h_get h (L "Etag")) (h_get h (L "Content-Encoding")) f = (hs, n, out) ->
  proper_code n = true ->
  exists c', pexec sniff parse_form next (static_handler location page serve serve_file o open os) x c = (EDone, (x, c')) /\
    rw_sent (cn_rw c') = Some (n, put_headers hs h) /\
    rw_body (cn_rw c') = rw_body (cn_rw c) ++ if bears_body n then concat out else [].
Proof. exact @static_content. Qed.
Print Assumptions C61_unreported_refuted.
(** What is reported: the answers of the handler itself, 404 for a missing file and
    304 for an unchanged one. *)
Theorem C61_reported_partial :
  forall (A V F O : Type) sniff parse_form location page
    (serve : request -> gostr -> gostr -> gostr -> F -> list (gostr * option gostr) * Z * list gostr)
    (serve_file : request -> gostr -> gostr -> gostr -> gostr -> O -> list (gostr * option gostr) * Z * list gostr)
    next (o : static_opts) open os (x : ctxobj A V) (c : conn V) (m : Params) name n,
  x_params x = Some m -> m !! L "*0" = Some name -> rw_sent (cn_rw c) = None -> x_written x = false ->
  (n = 404 /\ (open name = Absent \/ open name = NoStat) \/
   n = 304 /\ so_etag o <> 0%nat /\ exists mtime size base f, open name = Regular mtime size base f /\
     h_get (rq_header (cn_req c)) (L "If-None-Match") = file_tag (so_etag o) mtime size base) ->
  exists x' c' h, pexec sniff parse_form next (static_handler location page serve serve_file o open os) x c = (EDone, (x', c')) /\
    x_written x' = true /\ x_status x' = n /\ rw_sent (cn_rw c') = Some (n, h).
Proof.
  intros A V F O sniff parse_form location page serve serve_file next o open os x c m name n Hx Hm Hs Hw [(-> & Ho)|(-> & Ht & mtime & size & base & f & Ho & Hi)].
  - destruct (static_missing sniff parse_form location page serve serve_file next o open os x c m name Hx Hm Ho Hs Hw)
      as (x' & c' & E & H1 & H2 & H3 & _). by exists x', c', (rw_hdr (cn_rw c)).
  - destruct (static_not_modified sniff parse_form location page serve serve_file next o open os x c m name mtime size base f Hx Hm Ho Hs Hw Ht Hi)
      as (x' & c' & E & H1 & H2 & H3 & _). by eexists x', c', _.
Qed.
Print Assumptions C61_reported_partial.
(** a middleware that asks after the file was sent *)
Definition fx_ops2 : list (rop nat) := [RNew; RUse 0 [IFuncCtx 2%nat]; RHandle 0 0 (L "/f/*") [IFuncCtx 1%nat]].
Definition fx_code2 (h : handler nat) : prog gostr :=
  match h with
  | HFuncCtx 2%nat => PNext (PDo OWritten (fun _ => PDo OStatus (fun _ => PRet)))
  | _ => fx_code [] h
  end.
Example C61_case :
  exists e px c' l, engine_of ex_ok fx_ops2 0 [] e /\
    ServeHTTP ex_find ex_sniff ex_form fx_code2 e 0 newContext (arrive (get (L "/f/a.txt")) no_body) = (EDone, px, c') /\
    seen EDone c' = (EDone, 200, L "abc", [0%nat; 1%nat]) /\
    cn_log c' = l ++ [EvCall OWritten (Norm false); EvCall OStatus (Norm 0); EvEnd 0].
Proof.
  edestruct (with_engine_split ex_ok fx_ops2 [] (fun e =>
    let '(en, _, c) := ServeHTTP ex_find ex_sniff ex_form fx_code2 e 0 newContext (arrive (get (L "/f/a.txt")) no_body) in
    (en, seen EDone c, drop (length (cn_log c) - 3) (cn_log c)))) as (e & He & Hs); [vm_compute; reflexivity|].
  destruct (ServeHTTP ex_find ex_sniff ex_form fx_code2 e 0 newContext (arrive (get (L "/f/a.txt")) no_body)) as [[en px] c'] eqn:H.
  pose proof (f_equal snd Hs) as E3. pose proof (f_equal (fun y => y.1.2) Hs) as E2. pose proof (f_equal (fun y => y.1.1) Hs) as E1.
  cbn [fst snd] in E1, E2, E3. subst en.
  exists e, px, c', (take (length (cn_log c') - 3) (cn_log c')).
  split; [done|]. split; [done|]. split; [exact E2|].
  pose proof (take_drop (length (cn_log c') - 3) (cn_log c')) as T. rewrite E3 in T. symmetry. exact T.
Qed.

(** ** C62 *)
(** Whatever the name, http.Dir opens a path below its root: the names of the
    path add proper segments to it. *)
Theorem C62_below_root :
  forall root name, exists l, dir_open root name = below (Clean root) l /\ Forall proper l /\ l = walk [] (split_byte "/" name).
Proof. exact dir_open_below. Qed.
Print Assumptions C62_below_root.
Example C62_case : dir_open (L "./www/") (L "../../etc/./passwd") = L "www/etc/passwd" /\ Clean (L "./www/") = L "www" /\
  dir_open [] (L "/x") = L "x" /\ dir_open (L "/") (L "..") = L "/".
Proof. done. Qed.

(** ** C63 *)
(** The redirect for a directory leads to the same path with a final slash, if the
    path contains no percent, question or number sign. *)
Theorem C63_redirect_partial :
  forall q, let p := "/"%char :: q in Clean p <> L "/" ->
  "%"%char ∉ Clean p -> "?"%char ∉ Clean p -> "#"%char ∉ Clean p ->
  url_path (net_location (Clean p ++ L "/")) = Some (Clean p ++ L "/").
Proof. exact redirect_target. Qed.
Print Assumptions C63_redirect_partial.
Example C63_case : Clean (L "/f//dir") = L "/f/dir" /\ url_path (net_location (Clean (L "/f//dir") ++ L "/")) = Some (L "/f/dir/").
Proof. done. Qed.
(** In any case the redirect stays on this host (one slash in front), and has only
    ASCII bytes. *)
Theorem C63_same_host :
  forall q, exists rest, net_location (Clean ("/"%char :: q) ++ L "/") = "/"%char :: rest /\
    head rest <> Some "/"%char /\ Forall (fun b => (N_of_ascii b < 128)%N) rest.
Proof. exact redirect_stays. Qed.
Print Assumptions C63_same_host.
Example C63_host_case : net_location (Clean (L "//evil.org/a?b") ++ L "/") = L "/evil.org/a?b/" /\
  net_location (Clean ("/"%char :: map ascii_of_nat [195; 164]%nat) ++ L "/") = L "/%c3%a4/".
Proof. by vm_compute. Qed.
(** A directory named a?b: the reader of the Location goes elsewhere. *)
Theorem C63_redirect_refuted :
  exists e v px c' h, engine_of ex_ok fx_ops 0 [] e /\ sole_route ex_ok ex_find e v (get (L "/f/a?b")) /\
    fx_open (L "a?b") = Folder /\ fx_run [] e (L "/f/a?b") = (EDone, px, c') /\
    rw_sent (cn_rw c') = Some (302, h) /\ url_path (h_get h (L "Location")) = Some (L "/f/a").
Proof.
  destruct fx_engine as (e & v & He & _ & _ & _ & Hsole).
  assert ((let '(en, _, c) := fx_run [] e (L "/f/a?b") in
    (en, match rw_sent (cn_rw c) with Some (n, h) => Some (n, url_path (h_get h (L "Location"))) | None => None end)) = (EDone, Some (302, Some (L "/f/a")))) as E'.
  { apply (with_engine_fun ex_ok fx_ops [] (fun e => let '(en, _, c) := fx_run [] e (L "/f/a?b") in
      (en, match rw_sent (cn_rw c) with Some (n, h) => Some (n, url_path (h_get h (L "Location"))) | None => None end)) _ e); [vm_compute; reflexivity|exact He]. }
  destruct (fx_run [] e (L "/f/a?b")) as [[en px] c'] eqn:H.
  injection E' as -> E'. destruct (rw_sent (cn_rw c')) as [[n h]|] eqn:Hr; [|discriminate E'].
  exists e, v, px, c', h. split; [done|]. split; [by eapply Hsole; [vm_compute; reflexivity|]|]. split; [reflexivity|]. split; [done|].
  assert (n = 302) as -> by congruence. split; [exact Hr|congruence].
Qed.
Print Assumptions C63_redirect_refuted.

(** ** C64 *)
(** A static route with a prefix does not answer for the prefix itself, with or
    without a final slash: the index file of the root directory is not served. *)
Theorem C64_root_refuted :
  forall (A : Type) re_ok re_find (v : route A) pre r,
  Forall literal_seg pre -> pre <> [] -> rt_variant v = slashed (pre ++ [L "*"]) ->
  rq_path r = slashed pre \/ rq_path r = slashed pre ++ L "/" -> ~ fits re_ok re_find v r.
Proof. exact @root_unreachable. Qed.
Print Assumptions C64_root_refuted.
Example C64_case :
  exists e v, engine_of ex_ok fx_ops 0 [] e /\ v ∈ routes e /\ rt_variant v = slashed ([L "f"] ++ [L "*"]) /\ Forall literal_seg [L "f"] /\
    seen3 (fx_run [] e (L "/f/")) = (EDone, 404, [], []).
Proof.
  destruct fx_engine as (e & v & He & Hv0 & Hv & Hh & _). exists e, v. split; [done|]. split; [by eapply elem_of_list_lookup_2|].
  split; [done|]. split; [exact fx_literal|].
  apply (with_engine_fun ex_ok fx_ops [] (fun e => seen3 (fx_run [] e (L "/f/"))) _ e); [vm_compute; reflexivity|exact He].
Qed.
(** A static route without prefix does answer for "/", with the index file; but it is
    looked for in the working directory of the process, whatever the root is. *)
Theorem C64_slash_partial :
  forall (A V F O : Type) re_ok re_find sniff parse_form (code : handler A -> prog V) location page
    (serve : request -> gostr -> gostr -> gostr -> F -> list (gostr * option gostr) * Z * list gostr)
    (serve_file : request -> gostr -> gostr -> gostr -> gostr -> O -> list (gostr * option gostr) * Z * list gostr),
  (forall r t etag enc f, proper_code (serve r t etag enc f).1.2 = true) ->
  (forall r t etag enc p os, proper_code (serve_file r t etag enc p os).1.2 = true) ->
  forall ops r0 opts (e : engine A) id x r body en px c' v h o open os,
  engine_of re_ok ops r0 opts e -> ServeHTTP re_find sniff parse_form code e id x (arrive r body) = (en, px, c') ->
  (forall n, ~ refused r n) -> sole_route re_ok re_find e v r ->
  rt_variant v = L "/*" -> rt_handlers v = [h] -> code h = static_handler location page serve serve_file o open os ->
  rq_method r = L "GET" \/ rq_method r = L "HEAD" -> rq_path r = L "/" -> open [] = Folder ->
  en = EDone /\ exists n hd b, (n, hd, b) = completed (expiring o) (serve_file r [] [] [] (filepath_Join [[]; so_index o]) os) /\
    rw_sent (cn_rw c') = Some (n, hd) /\ rw_body (cn_rw c') = b.
Proof.
  intros A V F O re_ok re_find sniff parse_form code location page serve serve_file Hv1 Hv2 ops r0 opts e id x r body en px c' v h o open os
    He H Href Hsole Hvar Hh Hc Hm Hp Ho.
  destruct (static_served re_ok re_find sniff parse_form code location page serve serve_file Hv1 Hv2 ops r0 opts e id x r body en px c' v [] h o open os
    He H Href Hsole (Forall_nil_2 _) Hvar Hh Hc Hm) as (name & (rest & _ & Hseg & ->) & Hen & [[n hd] b] & Ha & Hsent & Hb).
  rewrite Hp in Hseg. change (path_segs (L "/")) with [@nil ascii] in Hseg. cbn [app] in Hseg. rewrite <- Hseg in Ha. cbn [join] in Ha.
  split; [done|]. exists n, hd, b. split; [|done].
  rewrite Ho in Ha. inversion Ha as [[?|?]| | |? Hs _|]; subst; try discriminate; try done.
  rewrite Hp in Hs. by vm_compute in Hs.
Qed.
Print Assumptions C64_slash_partial.
Definition fx_ops3 : list (rop nat) := [RNew; RHandle 0 0 (L "/*") [IFuncCtx 1%nat]; RHandle 0 5 (L "/*") [IFuncCtx 1%nat]].
Definition fx_code3 (os : gostr) (h : handler nat) : prog gostr :=
  static_handler fx_location fx_page fx_serve fx_file fx_opts (fun _ => Folder) os.
Example C64_slash_case :
  exists e v, engine_of ex_ok fx_ops3 0 [] e /\ sole_route ex_ok ex_find e v (get (L "/")) /\ rt_variant v = L "/*" /\
    rt_handlers v = [HFuncCtx 1%nat] /\ (forall n, ~ refused (get (L "/")) n) /\
    seen3 (ServeHTTP ex_find ex_sniff ex_form (fx_code3 (L "!")) e 0 newContext (arrive (get (L "/")) no_body)) =
      (EDone, 200, L "index.html!", [0%nat]).
Proof.
  edestruct (with_engine_split ex_ok fx_ops3 [] (fun e => (routes e, o_static (en_options e),
    seen3 (ServeHTTP ex_find ex_sniff ex_form (fx_code3 (L "!")) e 0 newContext (arrive (get (L "/")) no_body))))) as (e & He & Hs); [vm_compute; reflexivity|].
  apply pair_equal_spec in Hs as [Hs H3]. apply pair_equal_spec in Hs as [Hs Ho].
  exists e. eexists. split; [done|]. split; [split; [rewrite Hs; left|]; split|].
  - split; [reflexivity|]. eexists. split; [apply calc_route_ok; vm_compute; reflexivity|]. by apply accepts_last.
  - intros u Hu [(Hm & _)|(Hv & _)]; [|congruence]. rewrite Hs in Hu.
    apply elem_of_cons in Hu as [->|Hu]; [done|]. apply elem_of_list_singleton in Hu as ->. discriminate Hm.
  - split; [reflexivity|]. split; [reflexivity|]. split; [by apply fx_accepted|exact H3].
Qed.
