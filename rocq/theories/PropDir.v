(** Properties of listings of directories. *)
From Coq Require Import Sorted.
From Verif Require Import Base GoStr Strconv Pattern Tree TreeSpec Header Router RouterSpec PathClean Ctx CtxFacts Util UtilSpec Content
  TraceSpec Engine EngineSpec ServeTop ServeThms StaticReg Static StaticSpec RedirectFacts HelperSpec HelperLog NetFile FileSpec FileFacts
  ListingSpec CondSpec NetDir DirSpec DirFacts DirTop
  ExampleRegexp ExampleRouter ExampleServe PropMiddleware PropBehind PropStatic.
Local Open Scope Z_scope.

(** ** An example: a directory with six entries, one with a delicate name *)
Definition fk_entries : list entry :=
  [mkEntry (L "sub") true; mkEntry (L "b?.txt") false; mkEntry (L "a <i>") false; mkEntry (L "x:y") false; mkEntry (L "*") false; mkEntry (L "B & C") true].
Definition fk_dir (l : list entry) : dir := mkDir (Some 100) (Some l).
Definition fk_os (p : gostr) : node gostr dir :=
  if seqb p (L "files") then Directory (fk_dir fk_entries)
  else if seqb p (L "odd") then Directory (fk_dir [mkEntry (L "a&lt;b") false])
  else if seqb p (L "up") then Directory (fk_dir []) else if seqb p (L "up/index.html") then Directory (fk_dir [mkEntry (L "c") false])
  else if seqb p (L "broken") then Directory (mkDir None None) else Failed Missing.
Definition fk_parse (s : gostr) : option Z := if seqb s (L "then") then Some 100 else None.
Notation fk_list := (net_listing fk_parse (fun _ => L "then")).
Notation fk_file := (net_ServeFile (fun r => []) fx_serve fk_list).
Definition fk_code (h : handler nat) : prog gostr :=
  match h with
  | HFuncCtx 1%nat => PDo (OHeaderSet (L "X-Id") (L "7")) (fun _ => PNext PRet)
  | HFuncCtx 2%nat => ServeFile (fun r => []) fx_serve fk_list (L "files") fk_os (PDo (OWrite (L " end")) (fun _ => PRet))
  | HFuncCtx 3%nat => static_file_handler fk_file (L "files") fk_os
  | HFuncCtx 4%nat => static_file_handler fk_file (L "odd") fk_os
  | HFuncCtx 5%nat => static_file_handler fk_file (L "up") fk_os
  | HFuncCtx 6%nat => static_file_handler fk_file (L "broken") fk_os
  | _ => static_handler fx_location fx_page fx_serve fk_file (mkSO [] None 0) (fun name => if seqb name (L "files") then Folder else Absent) fk_os
  end.
Definition fk_req (hd : header) : request := mkReq (L "GET") 1 1 (L "/list/") (L "/list/") hd (L "192.0.2.1:9") false.
Notation fk_run e r := (ServeHTTP ex_find ex_sniff ex_form fk_code e 0 newContext (arrive r no_body)).
Definition fk_ops (js : list nat) : list (rop nat) := [RNew; RHandle 0 0 (L "/list") (map IFuncCtx js)].
Definition fk_seen (c : conn gostr) : Z * gostr * gostr * gostr :=
  match rw_sent (cn_rw c) with
  | Some (n, hd) => (n, h_get hd (L "Content-Type"), h_get hd (L "Last-Modified"), rw_body (cn_rw c))
  | None => (0, [], [], rw_body (cn_rw c))
  end.
Definition fk_page : gostr :=
  L "<pre>" ++ newline ++ L "<a href=""*"">*</a>" ++ newline ++ L "<a href=""B%20&%20C/"">B &amp; C/</a>" ++ newline ++
  L "<a href=""a%20%3Ci%3E"">a &lt;i&gt;</a>" ++ newline ++ L "<a href=""b%3F.txt"">b?.txt</a>" ++ newline ++
  L "<a href=""sub/"">sub/</a>" ++ newline ++ L "<a href=""./x:y"">x:y</a>" ++ newline ++ L "</pre>" ++ newline.
(** the request is one for the route and for no other, and gets this reply *)
Definition fk_serves (j : nat) (hd : header) (a : Z * gostr * gostr * gostr) : Prop :=
  exists e v, engine_of ex_ok (fk_ops [j]) 0 [] e /\ sole_route ex_ok ex_find e v (fk_req hd) /\ rt_handlers v = [HFuncCtx j] /\
    (forall n, ~ refused (fk_req hd) n) /\
    exists en px c', fk_run e (fk_req hd) = (en, px, c') /\ fk_seen c' = a.
Lemma fk_engine j hd a v : with_engine ex_ok (fk_ops [j]) [] (fun e => (routes e, fk_seen (fk_run e (fk_req hd)).2)) = Some ([v], a) ->
  rt_handlers v = [HFuncCtx j] -> fits ex_ok ex_find v (fk_req hd) -> fk_serves j hd a.
Proof.
  intros Hw Hh Hf. apply with_engine_split in Hw as (e & He & Hs). apply pair_equal_spec in Hs as [Hr Ha].
  exists e, v. split; [exact He|]. split.
  { split; [rewrite Hr; left|]. split; [done|]. intros u Hu _. rewrite Hr in Hu. by apply elem_of_list_singleton in Hu. }
  split; [done|]. split. { intros n [[H|[H|H]]|_ H]; [destruct H as [H|[_ H]]; discriminate H|discriminate H|discriminate H|]. apply H. left. }
  destruct (fk_run e (fk_req hd)) as [[en px] c'] eqn:E. by exists en, px, c'.
Qed.
Ltac fk := eapply fk_engine; [vm_compute; reflexivity|reflexivity|split; [reflexivity|]; eexists; split; [apply calc_route_ok; vm_compute; reflexivity|];
  repeat first [apply accepts_last; reflexivity | apply accepts_next; [reflexivity|]]].

(** ** C120 *)
(** A route of StaticFile (or one whose only handler calls File) leads to a directory.
    The reply is a page with one link per entry, in the order of the names; the texts
    of the links denote the names of the entries, directories with a slash, whatever
    bytes they have.  The addresses lead to the entries if in their names no & stands before a letter or digit. *)
Theorem C120_listing_partial :
  forall (A V F : Type) re_ok re_find sniff parse_form (code : handler A -> prog V) raw_query
    (serve : request -> gostr -> gostr -> gostr -> F -> list (gostr * option gostr) * Z * list gostr),
  (forall r t etag enc f, 100 <= (serve r t etag enc f).1.2 <= 999) ->
  forall parse_time http_date ops r0 opts (e : engine A) id x r body en px c' v h name os p d,
  engine_of re_ok ops r0 opts e -> ServeHTTP re_find sniff parse_form code e id x (arrive r body) = (en, px, c') ->
  (forall n, ~ refused r n) -> sole_route re_ok re_find e v r -> rt_handlers v = [h] ->
  code h = static_file_handler (net_ServeFile raw_query serve (net_listing parse_time http_date)) name os ->
  opened name p -> shows os p d -> ~ dotted (rq_path r) -> ~ ends_in (rq_path r) (L "/index.html") -> ends_in (rq_path r) (L "/") ->
  en = EDone /\ exists n hd, rw_sent (cn_rw c') = Some (n, hd) /\
    dir_reply parse_time http_date amp_apart r d n hd (rw_body (cn_rw c')).
Proof. exact @dir_served. Qed.
Print Assumptions C120_listing_partial.
(** The same for ServeFile in a chain of handlers, if nothing was sent before;
    [l3]: what the chain does later. *)
Theorem C120_serve_file_partial :
  forall (A V F : Type) re_ok re_find sniff parse_form (code : handler A -> prog V) raw_query
    (serve : request -> gostr -> gostr -> gostr -> F -> list (gostr * option gostr) * Z * list gostr),
  (forall r t etag enc f, 100 <= (serve r t etag enc f).1.2 <= 999) ->
  forall parse_time http_date ops r0 opts (e : engine A) id x r body en px c' name os p d k i l1 l2,
  engine_of re_ok ops r0 opts e -> ServeHTTP re_find sniff parse_form code e id x (arrive r body) = (en, px, c') -> uses_ctx code e ->
  (forall hs, dispatched re_ok re_find e r hs -> exists g, hs !! i = Some g /\
     code g = ServeFile raw_query serve (net_listing parse_time http_date) name os k) ->
  cn_log c' = l1 ++ EvStart i :: l2 -> ~ responded l1 ->
  opened name p -> shows os p d -> ~ dotted (rq_path r) -> ~ ends_in (rq_path r) (L "/index.html") -> ends_in (rq_path r) (L "/") ->
  exists n hd b m l3, l2 = m ++ l3 /\ starts m = [] /\ rw_sent (cn_rw c') = Some (n, hd) /\
    dir_reply parse_time http_date amp_apart r d n hd b /\
    rw_body (cn_rw c') = if decide (n = 304) then [] else b ++ data_of l3.
Proof. exact @dir_behind. Qed.
Print Assumptions C120_serve_file_partial.

(** A static route that is asked for a folder with a final slash, where nothing can be
    opened under the name of the index file: what is listed is the directory with this
    name that the process sees (os), whatever the folder of the route (open) has. *)
Theorem C120_static_partial :
  forall (A V F : Type) re_ok re_find sniff parse_form (code : handler A -> prog V) raw_query
    (serve : request -> gostr -> gostr -> gostr -> F -> list (gostr * option gostr) * Z * list gostr),
  (forall r t etag enc f, 100 <= (serve r t etag enc f).1.2 <= 999) ->
  forall parse_time http_date location page ops r0 opts (e : engine A) id x r body en px c' v pre h o open os name p d,
  engine_of re_ok ops r0 opts e -> ServeHTTP re_find sniff parse_form code e id x (arrive r body) = (en, px, c') ->
  (forall n, ~ refused r n) -> sole_route re_ok re_find e v r ->
  Forall literal_seg pre -> rt_variant v = slashed (pre ++ [L "*"]) ->
  rt_handlers v = [h] ->
  code h = static_handler location page serve (net_ServeFile raw_query serve (net_listing parse_time http_date)) o open os ->
  rq_method r = L "GET" \/ rq_method r = L "HEAD" ->
  file_name pre r name -> open name = Folder ->
  opened (filepath_Join [name; so_index o]) p -> shows os p d -> ~ dotted (rq_path r) -> ends_in (rq_path r) (L "/") ->
  en = EDone /\ exists n hd, rw_sent (cn_rw c') = Some (n, hd) /\
    dir_reply parse_time http_date amp_apart r d n hd (rw_body (cn_rw c')).
Proof. exact @dir_static. Qed.
Print Assumptions C120_static_partial.

(** *** Cases that meet the hypotheses *)
Example C120_listing_case :
  amp_apart (L "B & C") /\
  opened (L "files") (L "files") /\ shows fk_os (L "files") (fk_dir fk_entries) /\ shows fk_os (L "broken") (mkDir None None) /\
  ~ dotted (L "/list/") /\ ~ ends_in (L "/list/") (L "/index.html") /\ ends_in (L "/list/") (L "/") /\
  fk_serves 3 ∅ (200, L "text/html; charset=utf-8", L "then", fk_page) /\
  fk_serves 3 {[ L "If-Modified-Since" := [L "then"] ]} (304, [], [], []) /\
  fk_serves 6 ∅ (500, L "text/plain; charset=utf-8", [], L "Error reading directory" ++ newline).
Proof.
  split. { intros a c b E. destruct a as [|x [|y [|z [|u [|w a]]]]]; try discriminate E; [|by destruct a].
    assert (c = " "%char) as -> by (by injection E). unfold letter_or_digit. change (N_of_ascii " ") with 32%N. lia. }
  split. { exists [], (L "files"). split; [|done]. split; [done|]. split; [apply (bool_decide_eq_false _); by vm_compute|by left]. }
  split; [left; split; [done|by exists Missing]|]. split; [left; split; [done|by exists Missing]|].
  split; [intros H; apply dotted_spec in H; by vm_compute in H|]. split; [intros H; apply ends_spec in H; by vm_compute in H|].
  split; [apply ends_spec; by vm_compute|]. split_and!; fk.
Qed.
Definition fk_static : list (rop nat) := [RNew; RHandle 0 0 (L "/f/*") [IFuncCtx 7%nat]].
Example C120_static_case :
  Forall literal_seg [L "f"] /\ file_name [L "f"] (get (L "/f/files/")) (L "files") /\
  opened (filepath_Join [L "files"; []]) (L "files") /\ ~ dotted (L "/f/files/") /\ ends_in (L "/f/files/") (L "/") /\
  exists e v, engine_of ex_ok fk_static 0 [] e /\ sole_route ex_ok ex_find e v (get (L "/f/files/")) /\ rt_handlers v = [HFuncCtx 7%nat] /\
    rt_variant v = slashed ([L "f"] ++ [L "*"]) /\ (forall n, ~ refused (get (L "/f/files/")) n) /\
    fk_seen (fk_run e (get (L "/f/files/"))).2 = (200, L "text/html; charset=utf-8", L "then", fk_page).
Proof.
  split; [exact fx_literal|]. split; [exists [L "files"]; split_and!; [done|reflexivity|reflexivity]|].
  split. { exists [], (L "files"). split; [|done]. split; [done|]. split; [apply (bool_decide_eq_false _); by vm_compute|by left]. }
  split; [intros H; apply dotted_spec in H; by vm_compute in H|]. split; [apply ends_spec; by vm_compute|].
  edestruct (with_engine_split ex_ok fk_static [] (fun e => (routes e, fk_seen (fk_run e (get (L "/f/files/"))).2))) as (e & He & Hs); [vm_compute; reflexivity|].
  apply pair_equal_spec in Hs as [Hr Ha]. match type of Hr with _ = [?w] => exists e, w end. split; [exact He|]. split.
  { split; [rewrite Hr; left|]. split; [|intros u Hu _; rewrite Hr in Hu; by apply elem_of_list_singleton in Hu].
    split; [reflexivity|]; eexists; split; [apply calc_route_ok; vm_compute; reflexivity|]; repeat first [apply accepts_last; reflexivity | apply accepts_next; [reflexivity|]]. }
  split; [reflexivity|]. split; [reflexivity|]. split; [by apply fx_accepted|]. exact Ha.
Qed.
Definition fk_before : list (event gostr) := [EvStart 0; EvCall (OHeaderSet (L "X-Id") (L "7")) (Norm tt); EvNext].
Example C120_serve_file_case :
  exists e, engine_of ex_ok (fk_ops [1; 2]%nat) 0 [] e /\ uses_ctx fk_code e /\
    (forall hs, dispatched ex_ok ex_find e (fk_req ∅) hs -> hs !! 1%nat = Some (HFuncCtx 2%nat)) /\
    ~ responded fk_before /\ (exists l2, cn_log (fk_run e (fk_req ∅)).2 = fk_before ++ EvStart 1 :: l2) /\
    fk_seen (fk_run e (fk_req ∅)).2 = (200, L "text/html; charset=utf-8", L "then", fk_page ++ L " end").
Proof.
  edestruct (with_engine_split ex_ok (fk_ops [1; 2]%nat) [] (fun e => (chains e, take 4 (cn_log (fk_run e (fk_req ∅)).2), fk_seen (fk_run e (fk_req ∅)).2)))
    as (e & He & Hs); [vm_compute; reflexivity|]. apply pair_equal_spec in Hs as [Hs H3]. apply pair_equal_spec in Hs as [H1 H2].
  change (chains e = ([(L "GET", [HFuncCtx 1%nat; HFuncCtx 2%nat])], [])) in H1.
  exists e. split; [exact He|]. split.
  { pose proof H1 as H1'. injection H1' as Hc1 Hc2. split; [|rewrite Hc2; intros h Hin; by apply elem_of_nil in Hin].
    intros v h Hv Hh. assert (rt_handlers v = [HFuncCtx 1%nat; HFuncCtx 2%nat]) as E.
    { assert ((rt_method v, rt_handlers v) ∈ [(L "GET", [HFuncCtx 1%nat; HFuncCtx 2%nat])]) as Hin by (rewrite <- Hc1; apply elem_of_list_fmap; by exists v).
      apply elem_of_list_singleton in Hin. by injection Hin. }
    rewrite E in Hh. apply elem_of_cons in Hh as [->|Hh]. { cbn. split; [by intros []|]. done. }
    apply elem_of_list_singleton in Hh as ->. cbn [fk_code]. unfold ServeFile. cbn [only]. repeat (split; [by intros []|intros ?]).
    match goal with |- only _ (deliver false ?y _) => destruct y as [[hs n] out] end. unfold deliver. cbn iota.
    clear. induction hs as [|[k [v|]] hs IH]; cbn; try (split; [by intros []|intros _; exact IH]). split; [by intros []|intros _].
    induction out as [|d out IH]; cbn; (split; [by intros []|intros _]); [exact I|exact IH]. }
  split. { intros hs Hd. apply (dispatched_chains _ _ _ _ _ _ H1) in Hd. apply elem_of_list_singleton in Hd. by injection Hd as ->. }
  split; [by intros Hx; apply Hx|]. split; [|exact H3]. exists (drop 4 (cn_log (fk_run e (fk_req ∅)).2)).
  rewrite <- (take_drop 4 (cn_log _)) at 1. by rewrite H2.
Qed.

(** A page has one reading: no name can add a link or end the page. *)
Theorem C120_one_reading :
  (forall b l l', page b l -> page b l' -> l = l') /\ (forall t n n', reads_as t n -> reads_as t n' -> n = n') /\
  (forall h n n', attr_reads h n -> attr_reads h n' -> n = n').
Proof. split; [exact page_fun|]. split; [intros t n n' H; exact (reads_fun t n H n')|intros t n n' H; exact (attr_fun t n H n')]. Qed.
Print Assumptions C120_one_reading.

(** The addresses of names with & can lead elsewhere: a file a&lt;b gets a link to a<b.
    And if index.html is itself a directory, its entries are shown, with addresses as
    though they were in the directory above. *)
Theorem C120_links_refuted :
  (exists b h t, shows fk_os (L "odd") (fk_dir [mkEntry (L "a&lt;b") false]) /\ file_like (L "a&lt;b") /\
    fk_serves 4 ∅ (200, L "text/html; charset=utf-8", L "then", b) /\ page b [(h, t)] /\ reads_as t (L "a&lt;b") /\
    (exists ref, attr_reads h ref /\ leads (L "/list/") ref (L "/list/a<b")) /\
    ~ exists ref, attr_reads h ref /\ leads (L "/list/") ref (L "/list/a&lt;b")) /\
  (exists b h t, fk_os (L "up/index.html") = Directory (fk_dir [mkEntry (L "c") false]) /\
    fk_serves 5 ∅ (200, L "text/html; charset=utf-8", L "then", b) /\ page b [(h, t)] /\ reads_as t (L "c") /\
    exists ref, attr_reads h ref /\ leads (L "/list/") ref (L "/list/c")).
Proof.
  assert (attr_reads (L "a&lt;b") (L "a<b")) as Hr.
  { apply (ar_plain "a"); [apply (bool_decide_eq_false _); reflexivity|]. apply (ar_entity (L "&lt;") "<"); [unfold entities; set_solver|].
    apply ar_plain; [apply (bool_decide_eq_false _); reflexivity|constructor]. }
  split.
  - exists (L "<pre>" ++ newline ++ (L "<a href=""" ++ L "a&lt;b" ++ L """>" ++ L "a&amp;lt;b" ++ L "</a>" ++ newline ++ []) ++ L "</pre>" ++ newline),
      (L "a&lt;b"), (L "a&amp;lt;b").
    split; [left; split; [done|by exists Missing]|].
    split; [split_and!; [done|apply (bool_decide_eq_false _); reflexivity|done|done]|].
    split; [fk|]. split; [eexists; split; [reflexivity|]; apply an_cons; [apply (bool_decide_eq_false _); reflexivity..|constructor]|].
    split; [exact (NetRedirectFacts.page_reads (fun _ => None) (L "a&lt;b"))|]. split.
    + exists (L "a<b"). split; [exact Hr|]. exists (L "a<b"), (L "a<b"). split; [by left|].
      split; [apply (bool_decide_eq_false _); reflexivity|]. split; [apply (bool_decide_eq_false _); reflexivity|]. split; [done|]. split.
      { intros a b E. exfalso. assert (":"%char ∈ L "a<b") as Hin by (rewrite E; apply elem_of_app; right; left). revert Hin. apply (bool_decide_eq_false _). reflexivity. }
      split_and!; [apply (bool_decide_eq_false _); reflexivity..|done|done].
    + intros (ref & H1 & u & v & Hu & _ & _ & _ & _ & _ & _ & Hd & Hp). rewrite (attr_fun _ _ H1 _ Hr) in Hu.
      destruct Hu as [<-|Hu]; [|discriminate Hu]. injection Hd as <-. discriminate Hp.
  - exists (L "<pre>" ++ newline ++ (L "<a href=""" ++ L "c" ++ L """>" ++ L "c" ++ L "</a>" ++ newline ++ []) ++ L "</pre>" ++ newline), (L "c"), (L "c").
    split; [done|]. split; [fk|]. split; [eexists; split; [reflexivity|]; apply an_cons; [apply (bool_decide_eq_false _); reflexivity..|constructor]|].
    pose proof (anchor_links (mkEntry (L "c") false) (L "/list/")) as [K1 K2]. split; [exact K1|]. apply K2; [|by intros [|x [|y a]] c b E].
    split_and!; [done|apply (bool_decide_eq_false _); reflexivity|done|done].
Qed.
Print Assumptions C120_links_refuted.
