(** Properties of what handlers read of a request, and of the short answers. *)
From Verif Require Import Base GoStr GoStrFacts Strconv Util Pattern Tree TreeSpec Header Router RouterSpec Ctx CtxFacts TraceSpec
  Engine EngineSpec ServeTop ServeThms Content ContentFacts Getters Environ EnvironFacts BodySpec RequestSpec RequestFacts AbortFacts HelperFacts
  ExampleRegexp ExampleRouter ExampleServe PropMiddleware.
Local Open Scope Z_scope.

(** ** The example handlers *)
Definition rx_code (h : handler nat) : prog gostr :=
  match h with
  | HFuncCtx 0%nat => Forbidden PRet
  | HFuncCtx 1%nat => NoCache (String_ 200 (L "fresh") PRet)
  | HFuncCtx 2%nat => PDo (OBodyRead 2) (fun _ => PNext PRet)
  | HFuncCtx 3%nat => PDo OBodyReadAll (fun d => PDo (OWrite (fst d)) (fun _ => PRet))
  | HFuncCtx 4%nat => Abort 20 PRet
  | HFuncCtx 5%nat => String_ 201 (L "made") (PDo (OWrite (L " it")) (fun _ => PNext PRet))
  | _ => PDo (OWrite (L "other")) (fun _ => PRet)
  end.
Notation rx_run e r body := (ServeHTTP ex_find ex_sniff ex_form rx_code e 0 mx_new (arrive r (full_body body))).
Ltac rx chain body k := let H := fresh in
  edestruct (with_engine_split ex_ok (mx_ops chain) [] (fun e =>
    (mx_view k (rx_run e (mx_req (L "GET") []) body), chains e))) as (e & He & H); [vm_compute; reflexivity|];
  apply pair_equal_spec in H as [Hv Hc]; exists e; (split; [exact He|]); (split; [exact Hv|]);
  intros hs Hd; apply (dispatched_chains _ _ _ _ _ _ Hc) in Hd; rewrite !elem_of_cons, elem_of_nil in Hd;
  destruct Hd as [Hd|[Hd|[]]]; [injection Hd as ->|discriminate Hd].

(** ** C80: the short answers *)
(** A chain that begins with NotModified, BadRequest, Unauthorized, Forbidden,
    NotFound, InternalServerError or Abort(n): no other handler is started, and the
    answer is exactly this status, without a body and without headers; a status
    that HTTP does not have panics. *)
Theorem C80_refusals :
  forall (A V : Type) re_ok re_find sniff parse_form (code : handler A -> prog V) ops r0 opts e id x r body en px c' n,
  engine_of re_ok ops r0 opts e ->
  ServeHTTP re_find sniff parse_form code e id x (arrive r body) = (en, px, c') -> starts (cn_log c') <> [] ->
  (forall hs, dispatched re_ok re_find e r hs -> exists g hs', hs = g :: hs' /\ aborts (code g) n) ->
  starts (cn_log c') = [0%nat] /\
  (100 <= n <= 999 -> en = EDone /\ finish sniff (cn_rw c') = (n, ∅, [])) /\
  (~ 100 <= n <= 999 -> exists v, en = EThrow (Some v)).
Proof. exact @abort_serve. Qed.
Print Assumptions C80_refusals.
Example C80_case : exists e, engine_of ex_ok (mx_ops [0%nat; 3%nat]) 0 [] e /\
  mx_view (L "Content-Type") (rx_run e (mx_req (L "GET") []) (L "abc")) = (EDone, 403, [], [], [0%nat]) /\
  forall hs, dispatched ex_ok ex_find e (mx_req (L "GET") []) hs -> exists g hs', hs = g :: hs' /\ aborts (rx_code g) 403.
Proof. rx [0%nat; 3%nat] (L "abc") (L "Content-Type"). eexists _, _. split; [reflexivity|constructor]. Qed.
Example C80_invalid_case : exists e, engine_of ex_ok (mx_ops [4%nat; 3%nat]) 0 [] e /\
  mx_view [] (rx_run e (mx_req (L "GET") []) []) = (EThrow (Some (L "invalid WriteHeader code")), 200, [], [], [0%nat]) /\
  forall hs, dispatched ex_ok ex_find e (mx_req (L "GET") []) hs -> exists g hs', hs = g :: hs' /\ aborts (rx_code g) 20.
Proof. rx [4%nat; 3%nat] (@nil ascii) (@nil ascii). eexists _, _. split; [reflexivity|constructor]. Qed.
(** NoCache in front of a response helper: the answer carries the two headers that
    forbid caching. *)
Theorem C80_no_cache :
  forall (A V : Type) re_ok re_find sniff parse_form (code : handler A -> prog V) ops r0 opts e id x r body en px c' h p n t s,
  engine_of re_ok ops r0 opts e ->
  ServeHTTP re_find sniff parse_form code e id x (arrive r body) = (en, px, c') -> starts (cn_log c') <> [] ->
  (forall hs, dispatched re_ok re_find e r hs -> hs = [h]) -> code h = NoCache p -> helps p n t s -> 100 <= n <= 999 ->
  en = EDone /\ exists hd, finish sniff (cn_rw c') = (n, hd, if bears_body n then s else []) /\
    h_values hd (L "Cache-Control") = [L "no-cache, max-age=0, s-max-age=0, must-revalidate"] /\
    h_values hd (L "Expires") = [L "0"].
Proof. exact @nocache_serve. Qed.
Print Assumptions C80_no_cache.
Example C80_no_cache_case : exists e, engine_of ex_ok (mx_ops [1%nat]) 0 [] e /\
  mx_view (L "Expires") (rx_run e (mx_req (L "GET") []) []) = (EDone, 200, [L "0"], L "fresh", [0%nat]) /\
  forall hs, dispatched ex_ok ex_find e (mx_req (L "GET") []) hs -> hs = [HFuncCtx 1%nat] /\
    exists p, rx_code (HFuncCtx 1%nat) = NoCache p /\ helps p 200 (L "text/plain; charset=utf-8") (L "fresh").
Proof. rx [1%nat] (@nil ascii) (L "Expires"). split; [done|]. eexists. split; [reflexivity|constructor]. Qed.
(** The helpers do not end the handler: after one of them the handler goes on with
    what it has to do next (k), which is then all that it does: [w] is what the helper
    did, the status and the body, and [l] is what k did. *)
Theorem C80_goes_on :
  forall (A V : Type) re_ok re_find sniff parse_form (code : handler A -> prog V) ops r0 opts e id x r body en px c' n s k,
  engine_of re_ok ops r0 opts e ->
  ServeHTTP re_find sniff parse_form code e id x (arrive r body) = (en, px, c') -> starts (cn_log c') <> [] ->
  (forall hs, dispatched re_ok re_find e r hs -> exists g hs', hs = g :: hs' /\ answers_then (code g) n s k) -> 100 <= n <= 999 ->
  exists hs w l, dispatched re_ok re_find e r hs /\
    cn_log c' = EvStart 0 :: w ++ l ++ match en with EDone => [EvEnd 0] | _ => [] end /\
    starts w = [] /\ first_code w = Some n /\ data_of w = s /\ did code hs k l en.
Proof. exact @helper_serve. Qed.
Print Assumptions C80_goes_on.
Example C80_goes_on_case : exists e, engine_of ex_ok (mx_ops [5%nat; 3%nat]) 0 [] e /\
  mx_view [] (rx_run e (mx_req (L "GET") []) (L "!")) = (EDone, 201, [], L "made it!", [0%nat; 1%nat]) /\
  forall hs, dispatched ex_ok ex_find e (mx_req (L "GET") []) hs ->
    exists g hs', hs = g :: hs' /\ answers_then (rx_code g) 201 (L "made") (PDo (OWrite (L " it")) (fun _ => PNext PRet)).
Proof. rx [5%nat; 3%nat] (L "!") (@nil ascii). eexists _, _. split; [reflexivity|constructor]. Qed.

(** ** C81: request headers *)
(** Of the header lines that arrived, the getters use the first one with the name,
    whatever its case: *)
Theorem C81_header :
  forall lines k v, is_token k -> Forall (fun kv => is_token (fst kv)) lines ->
  first_line k lines v -> h_get (received lines) k = v.
Proof. exact received_get. Qed.
Print Assumptions C81_header.
Example C81_header_case :
  let lines := [(L "host", L "h"); (L "x-requested-WITH", L "XMLHttpRequest"); (L "X-Requested-With", L "no")] in
  is_token (L "X-Requested-With") /\ Forall (fun kv => is_token (fst kv)) lines /\
  first_line (L "X-Requested-With") lines (L "XMLHttpRequest").
Proof.
  cbv zeta. split; [by repeat constructor|]. split; [by repeat constructor|].
  apply first_later; [vm_compute; discriminate|]. apply first_this. vm_compute. reflexivity.
Qed.
Theorem C81_user_agent :
  forall r lines v, rq_header r = received lines -> Forall (fun kv => is_token (fst kv)) lines ->
  first_line (L "User-Agent") lines v -> UserAgent r = v.
Proof. intros r lines v Hr Hl Hf. unfold UserAgent. rewrite Hr. apply received_get; [by repeat constructor|done|done]. Qed.
Print Assumptions C81_user_agent.
(** IsAjax: *)
Theorem C81_ajax :
  forall r lines v, rq_header r = received lines -> Forall (fun kv => is_token (fst kv)) lines ->
  first_line (L "X-Requested-With") lines v -> IsAjax r = true <-> v = L "XMLHttpRequest".
Proof. exact is_ajax. Qed.
Print Assumptions C81_ajax.
(** IsWebsocket does not decide what RFC 6455 asks for, that "upgrade" is one of
    the elements of the Connection headers and "websocket" the Upgrade header: it
    accepts a request that says no-upgrade, *)
Theorem C81_websocket_accepts_refuted :
  exists r lines, rq_header r = received lines /\ Forall (fun kv => is_token (fst kv)) lines /\
    ~ has_element lines (L "Connection") (L "upgrade") /\ IsWebsocket r = true.
Proof.
  exists (mkReq (L "GET") 1 1 (L "/") (L "/") (received [(L "Connection", L "no-upgrade"); (L "Upgrade", L "websocket")]) [] false),
    [(L "Connection", L "no-upgrade"); (L "Upgrade", L "websocket")].
  split; [done|]. split; [by repeat constructor|]. split; [|vm_compute; reflexivity].
  intros (k' & v & pre & s & post & t & Hin & Hk & Hs & (l & rr & E & Hl & Hr) & Ht).
  rewrite !elem_of_cons, elem_of_nil in Hin. destruct Hin as [Hin|[Hin|[]]]; injection Hin as -> ->; [|vm_compute in Hk; discriminate].
  change (split_byte "," (L "no-upgrade")) with [L "no-upgrade"] in Hs.
  destruct pre as [|? pre]; [|destruct pre; discriminate]. injection Hs as <- _.
  assert (length t = 7%nat) as Hlen by (apply (f_equal length) in Ht; rewrite !map_length in Ht; exact Ht).
  assert (" "%char ∉ L "no-upgrade") as Hno by (apply (bool_decide_eq_true _); vm_compute; reflexivity).
  rewrite E in Hno. rewrite !not_elem_of_app in Hno. destruct Hno as (N1 & _ & N2).
  destruct l as [|a l]; [|inversion Hl; subst; by rewrite elem_of_cons in N1; destruct N1; left].
  destruct rr as [|a rr]; [|inversion Hr; subst; by rewrite elem_of_cons in N2; destruct N2; left].
  apply (f_equal length) in E. rewrite !app_length in E. cbn [length] in E. rewrite Hlen in E. vm_compute in E. discriminate.
Qed.
Print Assumptions C81_websocket_accepts_refuted.
(** and it overlooks "upgrade" in a second Connection line. *)
Theorem C81_websocket_misses_refuted :
  exists r lines, rq_header r = received lines /\ Forall (fun kv => is_token (fst kv)) lines /\
    has_element lines (L "Connection") (L "upgrade") /\ first_line (L "Upgrade") lines (L "websocket") /\ IsWebsocket r = false.
Proof.
  exists (mkReq (L "GET") 1 1 (L "/") (L "/") (received [(L "Connection", L "keep-alive"); (L "Connection", L "Upgrade"); (L "Upgrade", L "websocket")]) [] false),
    [(L "Connection", L "keep-alive"); (L "Connection", L "Upgrade"); (L "Upgrade", L "websocket")].
  split; [done|]. split; [by repeat constructor|]. split; [|split; [|vm_compute; reflexivity]].
  - exists (L "Connection"), (L "Upgrade"), [], (L "Upgrade"), [], (L "Upgrade"). split; [by right; left|].
    split; [done|]. split; [vm_compute; reflexivity|]. split; [|vm_compute; reflexivity].
    exists [], []. rewrite app_nil_r. by repeat split.
  - do 2 (apply first_later; [vm_compute; discriminate|]). by apply first_this.
Qed.
Print Assumptions C81_websocket_misses_refuted.
(** What it decides: the first Upgrade line is websocket, in any case, and the first
    Connection line contains upgrade, in any case. *)
Theorem C81_websocket_partial :
  forall r lines v u, rq_header r = received lines -> Forall (fun kv => is_token (fst kv)) lines ->
  first_line (L "Connection") lines v -> first_line (L "Upgrade") lines u ->
  IsWebsocket r = true <-> same_name u (L "websocket") /\ exists a m b, v = a ++ m ++ b /\ same_name m (L "upgrade").
Proof. exact is_websocket. Qed.
Print Assumptions C81_websocket_partial.
(** So every request that RFC 6455 means, with one Connection line, is accepted. *)
Theorem C81_websocket_single_partial :
  forall r lines1 v lines2, rq_header r = received (lines1 ++ (L "Connection", v) :: lines2) ->
  Forall (fun kv => is_token (fst kv)) (lines1 ++ (L "Connection", v) :: lines2) ->
  Forall (fun kv => ~ same_name (fst kv) (L "Connection")) (lines1 ++ lines2) ->
  has_element [(L "Connection", v)] (L "Connection") (L "upgrade") ->
  (exists u, first_line (L "Upgrade") (lines1 ++ (L "Connection", v) :: lines2) u /\ same_name u (L "websocket")) ->
  IsWebsocket r = true.
Proof. exact websocket_single. Qed.
Print Assumptions C81_websocket_single_partial.
(** Protocol is what a proxy announces in X-Forwarded-Proto, if that is http or
    https, and otherwise that of the connection. *)
Theorem C81_protocol :
  forall (A V : Type) sniff parse_form next (k : gostr -> prog V) (x : ctxobj A V) (c : conn V) lines v,
  rq_header (cn_req c) = received lines -> Forall (fun kv => is_token (fst kv)) lines -> first_line (L "X-Forwarded-Proto") lines v ->
  exists s c', pexec sniff parse_form next (Protocol k) x c = pexec sniff parse_form next (k s) x c' /\
    cn_req c' = cn_req c /\ cn_rw c' = cn_rw c /\ cn_body c' = cn_body c /\ cn_form c' = cn_form c /\
    (v = L "http" \/ v = L "https" -> s = v) /\
    (v <> L "http" -> v <> L "https" -> s = if rq_tls (cn_req c) then L "https" else L "http").
Proof. exact @protocol_of. Qed.
Print Assumptions C81_protocol.

(** ** C82: handlers read the request as it arrived *)
(** Every answer about the request, its body and its form is that of the request
    that arrived: the body byte for byte in order, each byte once, unless a handler
    replaced it; the form as parsed when it was first asked for. *)
Theorem C82_inputs :
  forall (A V : Type) re_find sniff parse_form (code : handler A -> prog V) (e : engine A) id x r body en px c',
  ServeHTTP re_find sniff parse_form code e id x (arrive r body) = (en, px, c') -> hist (in_rule parse_form r body) (cn_log c').
Proof. exact @serve_inputs. Qed.
Print Assumptions C82_inputs.
(** Reading to the end gives all of the body that was not read before, and an error
    only if the body that arrived ends with one. *)
Theorem C82_whole_body :
  forall (A V : Type) re_find sniff parse_form (code : handler A -> prog V) (e : engine A) id x r body en px c' l1 a l2,
  ServeHTTP re_find sniff parse_form code e id x (arrive r body) = (en, px, c') ->
  cn_log c' = l1 ++ EvCall OBodyReadAll a :: l2 -> Forall (fun ev => ~ rebodies ev) l1 ->
  exists d, a = Norm (d, ends_well (bd_feed body)) /\ bd_data body = concat (omap taken l1) ++ d.
Proof. exact @serve_body. Qed.
Print Assumptions C82_whole_body.
Example C82_case : exists e, engine_of ex_ok (mx_ops [2%nat; 3%nat]) 0 [] e /\
  exists en px c' l1 l2, rx_run e (mx_req (L "GET") []) (L "abcde") = (en, px, c') /\
    cn_log c' = l1 ++ EvCall OBodyReadAll (Norm (L "cde", true)) :: l2 /\ Forall (fun ev => ~ rebodies ev) l1 /\ omap taken l1 = [L "ab"].
Proof.
  edestruct (with_engine_split ex_ok (mx_ops [2%nat; 3%nat]) [] (fun e =>
    let '(_, _, c') := rx_run e (mx_req (L "GET") []) (L "abcde") in cn_log c')) as (e & He & Hs); [vm_compute; reflexivity|].
  exists e. split; [exact He|]. destruct (ServeHTTP _ _ _ _ _ _ _ _) as [[en px] c'] eqn:H. exists en, px, c'.
  exists [EvStart 0; EvCall (OBodyRead 2) (Norm (L "ab")); EvNext; EvStart 1]. eexists. split; [done|]. split; [exact Hs|].
  split; [|done]. by repeat constructor; intros [].
Qed.

(** ** C83: Environ *)
(** An Environ after any sequence of Set, assignments and deletions: Has, Get and
    Set, *)
Theorem C83_untyped :
  forall (F O : Type) name (os : list (eop F O)) o, holds name os o ->
  Environ_Has (made_by os) name = (if o then true else false) /\
  (forall v, Environ_Get (made_by os) name = Ok v <-> o = Some v) /\
  (o = None -> Environ_Get (made_by os) name = Panic (L "Environ not exist: " ++ name)) /\
  (forall v, match o with
             | None => exists m', Environ_Set (made_by os) name v = Ok m' /\ m' = made_by (os ++ [ESet name v])
             | Some _ => Environ_Set (made_by os) name v = Panic (L "double Environ: " ++ name) /\ made_by (os ++ [ESet name v]) = made_by os
             end).
Proof. exact @environ_untyped. Qed.
Print Assumptions C83_untyped.
(** and the typed getters: each gives a value exactly when one of its type is
    stored, without conversion between the types of numbers, and panics otherwise. *)
Theorem C83_typed :
  forall (F O : Type) name (os : list (eop F O)) o, holds name os o ->
  let m := made_by os in
  ((forall b, GetBool m name = Ok b <-> o = Some (VBool b)) /\ (forall z, GetInt m name = Ok z <-> o = Some (VInt z)) /\
   (forall z, GetInt64 m name = Ok z <-> o = Some (VInt64 z)) /\ (forall n, GetUint m name = Ok n <-> o = Some (VUint n)) /\
   (forall n, GetUint64 m name = Ok n <-> o = Some (VUint64 n)) /\ (forall f, GetFloat64 m name = Ok f <-> o = Some (VFloat64 f)) /\
   (forall s, GetString m name = Ok s <-> o = Some (VString s))) /\
  ((forall b, o <> Some (VBool b)) -> exists e, GetBool m name = Panic e) /\ ((forall z, o <> Some (VInt z)) -> exists e, GetInt m name = Panic e) /\
  ((forall z, o <> Some (VInt64 z)) -> exists e, GetInt64 m name = Panic e) /\ ((forall n, o <> Some (VUint n)) -> exists e, GetUint m name = Panic e) /\
  ((forall n, o <> Some (VUint64 n)) -> exists e, GetUint64 m name = Panic e) /\
  ((forall f, o <> Some (VFloat64 f)) -> exists e, GetFloat64 m name = Panic e) /\
  ((forall s, o <> Some (VString s)) -> exists e, GetString m name = Panic e).
Proof. exact @environ_typed. Qed.
Print Assumptions C83_typed.
Theorem C83_every_name : forall (F O : Type) name (os : list (eop F O)), exists o, holds name os o.
Proof. exact @holds_total. Qed.
Print Assumptions C83_every_name.
Example C83_case :
  let os := [ESet (L "n") (VInt 5); ESet (L "s") (VString (L "x")); ESet (L "n") (VInt64 6); EDel (L "s")] : list (eop Z unit) in
  holds (L "n") os (Some (VInt 5)) /\ holds (L "s") os None /\ GetInt (made_by os) (L "n") = Ok 5 /\ (exists e, GetInt64 (made_by os) (L "n") = Panic e).
Proof.
  cbv zeta. split; [|split; [|split; [vm_compute; reflexivity|eexists; vm_compute; reflexivity]]].
  - apply (holds_other _ [_; _; _]); [|discriminate]. apply (holds_again _ [_; _]). apply (holds_other _ [_]); [|discriminate].
    apply (holds_first _ []). constructor.
  - apply (holds_del _ [_; _; _]).
Qed.

(** ** C84: truth values *)
(** the text that a getter of a truth value reads *)
Inductive breads : gostr -> res bool -> Prop :=
  | reads_MustBool p name s : Params_String p name = Ok s -> breads s (MustBool p name)
  | reads_QueryBool f name : breads (Query f name) (Ok (QueryBool f name))
  | reads_DefaultQueryBool f name d : breads (DefaultQuery f name d) (Ok (DefaultQueryBool f name d))
  | reads_CookieBool cs r name : breads (Cookie cs r name) (Ok (CookieBool cs r name)).
(** All of them give true exactly for the texts 1, t, T, true, TRUE and True; a text
    that is no truth value is false. *)
Theorem C84_truth : forall s b, breads s b -> (b = Ok true <-> yes s) /\ (b = Ok false <-> ~ yes s).
Proof.
  intros s b H. assert (b = Ok (fst (parse_bool s))) as ->.
  { destruct H as [p name s E| | |]; [|reflexivity..]. unfold MustBool, Params_Bool. rewrite E. reflexivity. }
  rewrite <- parse_bool_iff. destruct (fst (parse_bool s)); split; split; congruence.
Qed.
Print Assumptions C84_truth.
(** Bool of Params tells whether the text is a truth value at all. *)
Theorem C84_error : forall p name s, Params_String p name = Ok s ->
  exists b ok, Params_Bool p name = Ok (b, ok) /\ (b = true <-> yes s) /\ (ok = true <-> yes s \/ no s).
Proof.
  intros p name s H. exists (fst (parse_bool s)), (snd (parse_bool s)). split; [|split; [apply parse_bool_iff|apply parse_bool_ok]].
  unfold Params_Bool. rewrite H. cbn [rbind]. by destruct (parse_bool s).
Qed.
Print Assumptions C84_error.
Example C84_case :
  let f := Some {[ L "on" := [L " true "; L "false"]; L "off" := [L "yes"] ]} : form in
  breads (L "true") (Ok (QueryBool f (L "on"))) /\ yes (L "true") /\
  breads (L "yes") (Ok (QueryBool f (L "off"))) /\ ~ yes (L "yes") /\ ~ no (L "yes").
Proof.
  cbv zeta. split_and!; try (apply (bool_decide_eq_true _); vm_compute; reflexivity).
  - exact (reads_QueryBool (Some {[ L "on" := [L " true "; L "false"]; L "off" := [L "yes"] ]}) (L "on")).
  - exact (reads_QueryBool (Some {[ L "on" := [L " true "; L "false"]; L "off" := [L "yes"] ]}) (L "off")).
Qed.
