(** Properties of query and form parameters, over a model of the forms of net/http. *)
From Coq Require Import ZArith NArith.
From Verif Require Import Base GoStr GoStrFacts Strconv Pattern Tree TreeSpec Header Router RouterSpec Ctx CtxFacts TraceSpec
  Engine EngineSpec ServeTop ServeThms CallSpec HttpFacts Getters GetterSpec GetterFacts BodySpec RequestSpec RequestFacts
  UtilSpec NetQuery QuerySpec QueryFacts QueryServe ExampleRegexp ExampleRouter ExampleServe PropMiddleware.
From Verif Require Binding BindingSpec.
Local Open Scope Z_scope.

(** media types without parameters, and no multipart bodies *)
Definition eq_media (s : gostr) : gostr * bool := (s, bool_decide ("/"%char ∈ s)).
Definition eq_multi (ct : gostr) (body : gostr * bool) : option values * gostr := (Some (v_add ∅ (L "n") (fst body)), []).
Definition eq_req (m uri ct : gostr) : request := mkReq m 1 1 uri (L "/") {[ L "Content-Type" := [ct] ]} [] false.

(** ** C104: query parameters arrive as they were sent *)
(** Every text is the query of some pairs, of which there may be malformed pieces
    besides; it is that of no others. *)
Theorem C104_every_query : forall q, exists ps ok, query_text q ps ok.
Proof. exact query_text_total. Qed.
Print Assumptions C104_every_query.
Theorem C104_determined : forall q ps ok ps' ok', query_text q ps ok -> query_text q ps' ok' ->
  ok = ok' /\ forall name, values_of name ps = values_of name ps'.
Proof.
  intros q ps ok ps' ok' H H'. apply ParseQuery_holds in H as [Hh He], H' as [Hh' He']. split; [congruence|].
  intros name. pose proof (Hh name) as E. rewrite (Hh' name) in E. destruct (values_of name ps), (values_of name ps'); congruence.
Qed.
Print Assumptions C104_determined.
(** All pairs of texts can be sent. *)
Theorem C104_every_pairs : forall ps, exists q, query_text q ps true /\ Forall (fun a => a ∈ L "0123456789ABCDEF%=&") q.
Proof. exact pairs_text. Qed.
Print Assumptions C104_every_pairs.
(** A getter that is the first to need the form works on one that holds exactly the
    pairs that were sent ... *)
Theorem C104_form :
  forall (A V : Type) sniff media read_form next X (g : form -> X) (k : X -> prog V) (x : ctxobj A V) c ps,
  x_parsed x = false -> ~ multipart_request (cn_req c) -> sent media (cn_req c) (unread (cn_body c)) ps true ->
  exists f x' c', holds f ps /\ cn_rw c' = cn_rw c /\
    pexec sniff (net_form media read_form) next (q_prog g k) x c = pexec sniff (net_form media read_form) next (k (g (Some f))) x' c'.
Proof.
  intros A V sniff media read_form next X g k x c ps Hp Hm Hs.
  destruct (ParseForm_sent _ _ _ _ _ Hs) as (f & rest & Hf & Hh & _).
  destruct (parsed_by sniff media read_form X g next k x c f rest Hp) as (x' & c' & _ & Hrw & E).
  - destruct (is_multipart (cn_req c)) eqn:Em; [by apply is_multipart_true in Em|done].
  - exists f, x', c'. done.
Qed.
Print Assumptions C104_form.
(** ... and gives the values of the name, without the white space around them. *)
Theorem C104_getters :
  forall f ps name, holds f ps ->
  (forall v vs, values_of name ps = v :: vs ->
     trimmed v (Query (Some f) name) /\ (forall d, DefaultQuery (Some f) name d = Query (Some f) name) /\
     exists ts, QueryArray (Some f) name = Some ts /\ Forall2 trimmed (v :: vs) ts /\ forall d, DefaultQueryArray (Some f) name d = Some ts) /\
  (values_of name ps = [] ->
     Query (Some f) name = [] /\ QueryArray (Some f) name = None /\
     (forall d, DefaultQuery (Some f) name d = d) /\ (forall d, DefaultQueryArray (Some f) name d = d)).
Proof.
  intros f ps name H. split.
  - intros v vs E. assert (f !! name = Some (v :: vs)) as Hf by (by rewrite (H name), E).
    destruct (query_some _ _ _ _ Hf) as (-> & H2 & -> & H4). split; [apply trim_space_trimmed|]. split; [done|].
    eexists. split; [reflexivity|]. split; [apply (trimmed_all (v :: vs))|done].
  - intros E. assert (Some f ≫= (.!! name) = None) as Hf by (cbn; by rewrite (H name), E).
    by destruct (query_none _ _ Hf) as (H1 & H2 & H3 & H4).
Qed.
Print Assumptions C104_getters.
(** QueryMap: the names key[x] that were sent, if there are none like key[x]rest. *)
Theorem C104_map_partial :
  forall f ps key order, holds f ps -> visits (Some f) order -> key <> [] -> "["%char ∉ key ->
  (forall n v x, (n, v) ∈ ps -> in_map_more key x n -> in_map key x n) ->
  exists d, QueryMap order key = Ok d /\ forall x y, d !! x = Some y <->
    x <> [] /\ "]"%char ∉ x /\ exists v vs, values_of (key ++ L "[" ++ x ++ L "]") ps = v :: vs /\ y = trim_space v.
Proof.
  intros f ps key order H Hv Hk Hk' Ht.
  destruct (query_map_tidy f order key Hv (holds_filled _ _ H)) as (d & Hd & Hi); [|done|done|].
  - intros n x [vs Hn] Hm. rewrite (H n) in Hn. destruct (values_of n ps) as [|v l] eqn:E; [done|].
    assert (exists v, (n, v) ∈ ps) as [w Hw]; [|by eapply Ht].
    unfold values_of in E. destruct (List.filter _ ps) as [|[n' w] rest] eqn:Ef; [done|].
    assert (List.In (n', w) (List.filter (fun p => bool_decide (p.1 = n)) ps)) as Hin by (rewrite Ef; by left).
    apply List.filter_In in Hin as [Hin Hn']. apply bool_decide_eq_true in Hn'. cbn in Hn'. subst n'. exists w. by apply elem_of_list_In.
  - exists d. split; [done|]. intros x y. rewrite (Hi x y). split; intros (H1 & H2 & v & vs & H3 & H4); (split; [done|split; [done|]]); exists v, vs; (split; [|done]).
    + pose proof (eq_trans (eq_sym H3) (H (key ++ L "[" ++ x ++ L "]"))) as E. destruct (values_of _ ps); congruence.
    + refine (eq_trans (H (key ++ L "[" ++ x ++ L "]")) _). by rewrite H3.
Qed.
Print Assumptions C104_map_partial.
(** In any request: a form that a handler of a chain sees, whatever the handlers
    before it did, is that of the query, if the method is not one with a form in its
    body. *)
Theorem C104_served :
  forall (A V : Type) re_find sniff media read_form (code : handler A -> prog V) (e : engine A) id x r body en px c' l1 f l2 q ps ok,
  ServeHTTP re_find sniff (net_form media read_form) code e id x (arrive r body) = (en, px, c') ->
  cn_log c' = l1 ++ EvCall OForm (Norm (Some f)) :: l2 ->
  ~ sends_body r -> asks r q -> query_text q ps ok -> holds f ps.
Proof.
  intros A V re_find sniff media read_form code e id x r body en px c' l1 f l2 q ps ok Hs Hl Hb Ha Hq.
  apply serve_inputs in Hs. specialize (Hs _ _ _ Hl). cbn in Hs. apply (f_equal (fun o => match o with Norm a => a | _ => None end)) in Hs. symmetry in Hs.
  apply form_parsed in Hs as (l0 & a & l3 & _ & _ & ->).
  assert (is_multipart r = false) as ->.
  { destruct (is_multipart r) eqn:E; [|done]. apply is_multipart_true in E as [E _]. by destruct Hb. }
  destruct (ParseForm_sent media r (unread (fst (inputs (net_form media read_form) r body l0))) ps ok) as (f & rest & Hf & Hh & _); [by eapply sent_query|].
  match goal with |- context [net_form media read_form false r ?b] => change (net_form media read_form false r b) with (ParseForm media r b) end.
  by rewrite Hf.
Qed.
Print Assumptions C104_served.

(** The query binder reads the same pairs, also beside malformed ones. *)
Theorem C104_bind :
  forall (D : Type) mform r f form (files : gmap gostr (list D)) tag q ps ok,
  BindingSpec.reads mform url_Query r f Binding.BQuery form files tag -> asks r q -> query_text q ps ok -> holds form ps.
Proof.
  intros D mform r f form files tag q ps ok H Ha Hq. inversion H; subst. unfold url_Query. rewrite (asks_raw _ _ Ha). by apply (ParseQuery_holds q ps ok).
Qed.
Print Assumptions C104_bind.

(** the pairs of the examples *)
Definition eq_code (h : handler nat) : prog gostr :=
  match h with
  | HFuncCtx 0%nat => PDo OParseForm (fun _ => PNext PRet)
  | HFuncCtx 1%nat => q_prog (fun f => Query f (L "a b")) (fun s => PDo (OWrite s) (fun _ => PRet))
  | _ => PDo (OBodyRead 2) (fun _ => PNext PRet)
  end.
Notation eq_run e r body := (ServeHTTP ex_find ex_sniff (net_form eq_media eq_multi) eq_code e 0 mx_new (arrive r (full_body body))).
Ltac eq_spelled := apply spelled_check; vm_compute; reflexivity.
Lemma eq_text : query_text (L "a+b=%20c%3D1&x;a%20b=2") [(L "a b", L " c=1"); (L "x", []); (L "a b", L "2")] true.
Proof.
  apply (qt_more (L "a+b=%20c%3D1") [(L "a b", L " c=1")] true "&" (L "x;a%20b=2") [(L "x", []); (L "a b", L "2")] true).
  - apply pc_pair. apply (pt_both (L "a b") (L " c=1") (L "a+b") (L "%20c%3D1")); eq_spelled.
  - apply (bool_decide_eq_true _). vm_compute. reflexivity.
  - apply (qt_more (L "x") [(L "x", [])] true ";" (L "a%20b=2") [(L "a b", L "2")] true).
    + apply pc_pair, pt_name; [eq_spelled|done].
    + apply (bool_decide_eq_true _). vm_compute. reflexivity.
    + apply qt_last, pc_pair. apply (pt_both (L "a b") (L "2") (L "a%20b") (L "2")); eq_spelled.
Qed.
Example C104_getters_case :
  exists f, holds f [(L "a b", L " c=1"); (L "x", []); (L "a b", L "2")] /\
    values_of (L "a b") [(L "a b", L " c=1"); (L "x", []); (L "a b", L "2")] = [L " c=1"; L "2"] /\
    Query (Some f) (L "a b") = L "c=1" /\ QueryArray (Some f) (L "x") = Some [[]] /\ QueryArray (Some f) (L "y") = None.
Proof.
  exists (fst (ParseQuery (L "a+b=%20c%3D1&x;a%20b=2"))). split; [apply (ParseQuery_holds _ _ _ eq_text)|]. vm_compute. done.
Qed.
Example C104_form_case :
  let r := eq_req (L "GET") (L "/s?a+b=%20c%3D1&x;a%20b=2") [] in
  ~ multipart_request r /\ sent eq_media r ([], true) [(L "a b", L " c=1"); (L "x", []); (L "a b", L "2")] true.
Proof.
  cbv zeta. split.
  - intros [H _]. revert H. apply (bool_decide_eq_false _). vm_compute. reflexivity.
  - eapply sent_query; [|apply (asks_query _ (L "/s")); [reflexivity|]|exact eq_text].
    + apply (bool_decide_eq_false _). vm_compute. reflexivity.
    + apply (bool_decide_eq_true _). vm_compute. reflexivity.
Qed.
Example C104_map_case :
  let ps := [(L "ids[a]", L "1"); (L "ids", L "2"); (L "ids[b]", L "3")] in
  query_text (L "ids[a]=1&ids=2&ids[b]=3") ps true /\ (forall n v x, (n, v) ∈ ps -> in_map_more (L "ids") x n -> in_map (L "ids") x n).
Proof.
  cbv zeta. split.
  - apply (qt_more (L "ids[a]=1") [(L "ids[a]", L "1")] true "&" (L "ids=2&ids[b]=3") [(L "ids", L "2"); (L "ids[b]", L "3")] true).
    + apply pc_pair. apply (pt_both (L "ids[a]") (L "1") (L "ids[a]") (L "1")); eq_spelled.
    + apply (bool_decide_eq_true _). vm_compute. reflexivity.
    + apply (qt_more (L "ids=2") [(L "ids", L "2")] true "&" (L "ids[b]=3") [(L "ids[b]", L "3")] true).
      * apply pc_pair. apply (pt_both (L "ids") (L "2") (L "ids") (L "2")); eq_spelled.
      * apply (bool_decide_eq_true _). vm_compute. reflexivity.
      * apply qt_last, pc_pair. apply (pt_both (L "ids[b]") (L "3") (L "ids[b]") (L "3")); eq_spelled.
  - intros n v x Hn Hm. apply map_key_spec in Hm. rewrite !elem_of_cons, elem_of_nil in Hn.
    destruct Hn as [Hn|[Hn|[Hn|[]]]]; injection Hn as -> ->; vm_compute in Hm; [|discriminate|]; injection Hm as <-; reflexivity.
Qed.
Example C104_served_case : exists e, engine_of ex_ok (mx_ops [0%nat; 1%nat]) 0 [] e /\
  let r := mkReq (L "GET") 1 1 (L "/?a+b=%20c%3D1&x;a%20b=2") (L "/") ∅ [] false in
  ~ sends_body r /\ exists en px c' l1 f l2, eq_run e r [] = (en, px, c') /\
    cn_log c' = l1 ++ EvCall OForm (Norm (Some f)) :: l2 /\ rw_body (cn_rw c') = L "c=1".
Proof.
  edestruct (with_engine_split ex_ok (mx_ops [0%nat; 1%nat]) [] (fun e =>
    let '(_, _, c') := eq_run e (mkReq (L "GET") 1 1 (L "/?a+b=%20c%3D1&x;a%20b=2") (L "/") ∅ [] false) [] in (cn_log c', rw_body (cn_rw c')))) as (e & He & Hs);
    [vm_compute; reflexivity|].
  exists e. split; [exact He|]. cbv zeta. split; [apply (bool_decide_eq_false _); vm_compute; reflexivity|].
  destruct (ServeHTTP _ _ _ _ _ _ _ _) as [[en px] c'] eqn:H. exists en, px, c'. apply pair_equal_spec in Hs as [Hs Hb].
  exists [EvStart 0; EvCall OParseForm (Norm tt); EvNext; EvStart 1; EvCall OParseForm (Norm tt)]. eexists _, _. split; [done|]. split; [exact Hs|exact Hb].
Qed.

(** ** C105: forms in bodies *)
(** A POST, PUT or PATCH request with a form in its body: the values of the body
    come before those of the query, so that Query gives the one of the body if there
    is one. *)
Theorem C105_body_first :
  forall (A V : Type) sniff media read_form next X (g : form -> X) (k : X -> prog V) (x : ctxobj A V) c bs q ps,
  x_parsed x = false -> ~ multipart_request (cn_req c) -> sends_body (cn_req c) -> media (content_type (cn_req c)) = (form_type, true) ->
  ends_well (bd_feed (cn_body c)) = true -> (N.of_nat (length (bd_data (cn_body c))) <= 10485760)%N ->
  query_text (bd_data (cn_body c)) bs true -> asks (cn_req c) q -> query_text q ps true ->
  exists f x' c', pexec sniff (net_form media read_form) next (q_prog g k) x c = pexec sniff (net_form media read_form) next (k (g (Some f))) x' c' /\
    cn_rw c' = cn_rw c /\ forall name,
    (forall v vs, values_of name bs = v :: vs -> trimmed v (Query (Some f) name) /\
       exists ts, QueryArray (Some f) name = Some ts /\ Forall2 trimmed ((v :: vs) ++ values_of name ps) ts) /\
    (forall v vs, values_of name bs = [] -> values_of name ps = v :: vs -> trimmed v (Query (Some f) name)) /\
    (values_of name bs = [] -> values_of name ps = [] -> Query (Some f) name = [] /\ QueryArray (Some f) name = None).
Proof.
  intros A V sniff media read_form next X g k x c bs q ps Hp Hm Hs Ht Hw Hl Hb Ha Hq.
  destruct (C104_form A V sniff media read_form next X g k x c (bs ++ ps) Hp Hm) as (f & x' & c' & Hh & Hrw & E).
  { change true with (true && true). by eapply sent_form. }
  exists f, x', c'. split; [done|]. split; [done|]. intros name. destruct (C104_getters f (bs ++ ps) name Hh) as [G1 G2].
  rewrite values_of_app in G1, G2. split; [|split].
  - intros v vs Ev. rewrite Ev in G1. destruct (G1 v (vs ++ values_of name ps) eq_refl) as (T1 & _ & ts & T2 & T3 & _). split; [done|]. by exists ts.
  - intros v vs Ev Ev'. rewrite Ev, Ev' in G1. by destruct (G1 v vs eq_refl) as (T1 & _).
  - intros Ev Ev'. rewrite Ev, Ev' in G2. by destruct (G2 eq_refl) as (T1 & T2 & _).
Qed.
Print Assumptions C105_body_first.
Example C105_body_first_case :
  let r := eq_req (L "POST") (L "/?a=1&b=2") form_type in
  ~ multipart_request r /\ sends_body r /\ eq_media (content_type r) = (form_type, true) /\ asks r (L "a=1&b=2") /\
  query_text (L "a=3") [(L "a", L "3")] true /\ query_text (L "a=1&b=2") [(L "a", L "1"); (L "b", L "2")] true.
Proof.
  cbv zeta. split_and!.
  - intros H. apply is_multipart_true in H. vm_compute in H. discriminate.
  - apply (bool_decide_eq_true _). vm_compute. reflexivity.
  - vm_compute. reflexivity.
  - apply (asks_query _ (L "/")); [reflexivity|]. apply (bool_decide_eq_true _). vm_compute. reflexivity.
  - apply qt_last, pc_pair. apply (pt_both (L "a") (L "3") (L "a") (L "3")); eq_spelled.
  - apply (qt_more (L "a=1") [(L "a", L "1")] true "&" (L "b=2") [(L "b", L "2")] true).
    + apply pc_pair. apply (pt_both (L "a") (L "1") (L "a") (L "1")); eq_spelled.
    + apply (bool_decide_eq_true _). vm_compute. reflexivity.
    + apply qt_last, pc_pair. apply (pt_both (L "b") (L "2") (L "b") (L "2")); eq_spelled.
Qed.
(** With a multipart body it is the other way round: the values of the query come
    before those of the fields. *)
Theorem C105_multipart_last :
  forall (A V : Type) sniff media read_form next X (g : form -> X) (k : X -> prog V) (x : ctxobj A V) c ps vs rest fs t,
  x_parsed x = false -> multipart_request (cn_req c) -> media (content_type (cn_req c)) = (t, true) -> t <> form_type ->
  sent media (cn_req c) (unread (cn_body c)) ps true ->
  read_form (h_get (rq_header (cn_req c)) (L "Content-Type")) (unread (cn_body c)) = (Some vs, rest) -> holds vs fs ->
  exists f x' c', holds f (ps ++ fs) /\ cn_rw c' = cn_rw c /\
    pexec sniff (net_form media read_form) next (q_prog g k) x c = pexec sniff (net_form media read_form) next (k (g (Some f))) x' c'.
Proof.
  intros A V sniff media read_form next X g k x c ps vs rest fs t Hp Hm Ht Hne Hs Hr Hfs.
  destruct (ParseForm_sent _ _ _ _ _ Hs) as (f & rest' & Hf & Hh & Hrest). rewrite Hrest in Hf by (right; by rewrite Ht).
  destruct (parsed_by sniff media read_form X g next k x c (copyValues f vs) rest Hp) as (x' & c' & _ & Hrw & E).
  - apply is_multipart_true in Hm as ->. unfold net_form, ParseMultipartForm. rewrite Hf. cbn [negb].
    rewrite <- surjective_pairing. rewrite Hr. done.
  - exists (copyValues f vs), x', c'. split; [by apply copy_holds|done].
Qed.
Print Assumptions C105_multipart_last.
Example C105_multipart_last_case :
  let r := eq_req (L "PUT") (L "/?n=1") (L "multipart/form-data") in
  multipart_request r /\ eq_media (content_type r) = (L "multipart/form-data", true) /\ sent eq_media r (L "x", true) [(L "n", L "1")] true /\
  exists vs rest, eq_multi (h_get (rq_header r) (L "Content-Type")) (L "x", true) = (Some vs, rest) /\ holds vs [(L "n", L "x")].
Proof.
  cbv zeta. split_and!.
  - apply is_multipart_true. vm_compute. reflexivity.
  - vm_compute. reflexivity.
  - eapply sent_other; [|vm_compute; reflexivity|vm_compute; discriminate|apply (asks_query _ (L "/")); [reflexivity|]|].
    + apply (bool_decide_eq_true _). vm_compute. reflexivity.
    + apply (bool_decide_eq_true _). vm_compute. reflexivity.
    + apply qt_last, pc_pair. apply (pt_both (L "n") (L "1") (L "n") (L "1")); eq_spelled.
  - eexists _, _. split; [reflexivity|]. cbn [fst]. apply (holds_add ∅ [] (L "n") (L "x")), holds_empty.
Qed.
(** Anything malformed, a query, a form body, the Content-Type of a request with a
    body, a body of more than 10 MB or that breaks off: the first getter panics and the
    handler does not go on; ... *)
Theorem C105_malformed :
  forall (A V : Type) sniff media read_form next X (g : form -> X) (k : X -> prog V) (x : ctxobj A V) c ps,
  x_parsed x = false -> sent media (cn_req c) (unread (cn_body c)) ps false ->
  exists v f x' c', pexec sniff (net_form media read_form) next (q_prog g k) x c = (EThrow (Some v), (x', c')) /\
    cn_rw c' = cn_rw c /\ x_parsed x' = true /\ cn_form c' = Some f /\ holds f ps.
Proof.
  intros A V sniff media read_form next X g k x c ps Hp Hs.
  destruct (ParseForm_sent _ _ _ _ _ Hs) as (f & rest & Hf & Hh & _).
  destruct (parse_fails sniff media read_form X g next k x c f rest Hp) as (v & x' & c' & H1 & H2 & H3 & H4).
  - unfold net_form, ParseMultipartForm. rewrite Hf. by destruct (is_multipart _).
  - exists v, f, x', c'. done.
Qed.
Print Assumptions C105_malformed.
(** ... a second getter, after a recovery, works on the well-formed pairs. *)
Theorem C105_malformed_again :
  forall (A V : Type) sniff parse_form next X (g : form -> X) (k : X -> prog V) (x : ctxobj A V) c,
  x_parsed x = true ->
  exists c', pexec sniff parse_form next (q_prog g k) x c = pexec sniff parse_form next (k (g (cn_form c))) x c' /\
    cn_rw c' = cn_rw c /\ cn_form c' = cn_form c.
Proof.
  intros A V sniff parse_form next X g k x c Hp. eexists. split; [unfold q_prog; cbn [pexec]; unfold call at 1; cbn [do_op]; rewrite Hp; cbn; reflexivity|]. done.
Qed.
Print Assumptions C105_malformed_again.
Example C105_malformed_case :
  sent eq_media (eq_req (L "GET") (L "/?a=%zz&b=2") []) ([], true) [(L "b", L "2")] false.
Proof.
  eapply sent_query; [|apply (asks_query _ (L "/")); [reflexivity|]|].
  - apply (bool_decide_eq_false _). vm_compute. reflexivity.
  - apply (bool_decide_eq_true _). vm_compute. reflexivity.
  - assert (query_text (L "a=%zz&b=2") ([] ++ [(L "b", L "2")]) (false && true)) as H; [|exact H].
    apply (qt_more (L "a=%zz") [] false "&" (L "b=2")).
    + apply pc_bad; [done|apply (bool_decide_eq_true _); vm_compute; reflexivity..|]. intros p Hp.
      pose proof (piece_parsed _ _ _ (pc_pair _ _ Hp) (∅, true)) as E. apply (f_equal snd) in E. vm_compute in E. discriminate.
    + apply (bool_decide_eq_true _). vm_compute. reflexivity.
    + apply qt_last, pc_pair. apply (pt_both (L "b") (L "2") (L "b") (L "2")); eq_spelled.
Qed.
(** In any request: the form that a handler sees is that of the body at the time when
    a handler first asked for one; the bodies that other handlers read before are lost
    for it. *)
Theorem C105_served :
  forall (A V : Type) re_find sniff media read_form (code : handler A -> prog V) (e : engine A) id x r body en px c' l1 f l2,
  ServeHTTP re_find sniff (net_form media read_form) code e id x (arrive r body) = (en, px, c') ->
  cn_log c' = l1 ++ EvCall OForm (Norm (Some f)) :: l2 -> ~ multipart_request r ->
  exists l0 a l3, l1 = l0 ++ EvCall OParseForm a :: l3 /\ Forall (fun ev => ~ parses ev) l0 /\
    (forall ps ok, sent media r (unread (fst (inputs (net_form media read_form) r body l0))) ps ok -> holds f ps /\ (ok = true <-> a = Norm tt)) /\
    (Forall (fun ev => ~ touches true ev /\ ~ rebodies ev) l0 -> forall ps ok, sent media r (unread body) ps ok -> holds f ps).
Proof.
  intros A V re_find sniff media read_form code e id x r body en px c' l1 f l2 Hs Hl Hb.
  apply serve_inputs in Hs. pose proof (Hs _ _ _ Hl) as Hf. cbn in Hf. apply (f_equal (fun o => match o with Norm a => a | _ => None end)) in Hf. symmetry in Hf.
  apply form_parsed in Hf as (l0 & a & l3 & -> & Hno & Ef). exists l0, a, l3. split; [done|]. split; [done|].
  assert (is_multipart r = false) as Em. { destruct (is_multipart r) eqn:E; [|done]. by apply is_multipart_true in E. }
  rewrite Em in Ef.
  assert (forall ps ok, sent media r (unread (fst (inputs (net_form media read_form) r body l0))) ps ok -> holds f ps /\
    exists rest, net_form media read_form false r (unread (fst (inputs (net_form media read_form) r body l0))) = (f, ok, rest)) as Hgen.
  { intros ps ok H. destruct (ParseForm_sent _ _ _ _ _ H) as (f' & rest & Hf & Hh & _).
    assert (net_form media read_form false r (unread (fst (inputs (net_form media read_form) r body l0))) = (f', ok, rest)) as Hf' by exact Hf.
    rewrite Hf' in Ef |- *. cbn in Ef. subst f'. split; [done|]. by exists rest. }
  split.
  - intros ps ok H. destruct (Hgen _ _ H) as (Hh & rest & Hr). split; [done|].
    rewrite <- app_assoc in Hl. pose proof (Hs _ _ _ Hl) as Ha. cbn [in_rule] in Ha.
    assert (snd (inputs (net_form media read_form) r body l0) = None) as Hn.
    { destruct (snd (inputs _ r body l0)) as [f0|] eqn:E0; [|done]. apply form_parsed in E0 as (m0 & a0 & m1 & -> & _ & _).
      apply Forall_app in Hno as [_ Hno]. apply Forall_inv in Hno. by destruct Hno. }
    rewrite Hn, Em in Ha. destruct (fst (inputs _ r body l0)) as [data how]. unfold unread in Hr. cbn [bd_data bd_feed] in Hr. rewrite Hr in Ha.
    destruct ok; [by subst|]. split; [done|]. intros ->. by destruct Ha.
  - intros Hun ps ok H. rewrite (body_untouched (net_form media read_form) r body l0 Hun) in Hgen. by apply Hgen in H as [H _].
Qed.
Print Assumptions C105_served.
(** a handler that reads two bytes before *)
Example C105_served_case : exists e, engine_of ex_ok ([RNew; RHandle 0 1 (L "/") [IFuncCtx 2%nat; IFuncCtx 1%nat]]) 0 [] e /\
  let r := eq_req (L "POST") (L "/?a+b=7") form_type in
  ~ multipart_request r /\ exists en px c' l1 f l2, eq_run e r (L "a=a+b=1&a+b=2") = (en, px, c') /\
    cn_log c' = l1 ++ EvCall OForm (Norm (Some f)) :: l2 /\ l1 = [EvStart 0; EvCall (OBodyRead 2) (Norm (L "a=")); EvNext; EvStart 1; EvCall OParseForm (Norm tt)] /\
    sent eq_media r (unread (fst (inputs (net_form eq_media eq_multi) r (full_body (L "a=a+b=1&a+b=2")) (take 4 l1)))) [(L "a b", L "1"); (L "a b", L "2"); (L "a b", L "7")] true /\
    rw_body (cn_rw c') = L "1".
Proof.
  edestruct (with_engine_split ex_ok ([RNew; RHandle 0 1 (L "/") [IFuncCtx 2%nat; IFuncCtx 1%nat]]) [] (fun e =>
    let '(_, _, c') := eq_run e (eq_req (L "POST") (L "/?a+b=7") form_type) (L "a=a+b=1&a+b=2") in (cn_log c', rw_body (cn_rw c')))) as (e & He & Hs);
    [vm_compute; reflexivity|].
  exists e. split; [exact He|]. cbv zeta. split; [intros H; apply is_multipart_true in H; vm_compute in H; discriminate|].
  destruct (ServeHTTP _ _ _ _ _ _ _ _) as [[en px] c'] eqn:H. exists en, px, c'. apply pair_equal_spec in Hs as [Hs Hb].
  exists [EvStart 0; EvCall (OBodyRead 2) (Norm (L "a=")); EvNext; EvStart 1; EvCall OParseForm (Norm tt)]. eexists _, _. split; [done|]. split; [exact Hs|]. split; [done|]. split; [|exact Hb].
  cbn [take].
  match goal with |- sent _ _ ?b _ _ => change b with (L "a+b=1&a+b=2", true) end.
  change [(L "a b", L "1"); (L "a b", L "2"); (L "a b", L "7")] with ([(L "a b", L "1"); (L "a b", L "2")] ++ [(L "a b", L "7")]).
  refine (sent_form _ _ _ _ _ true _ true _ _ _ _ _ _ _).
  - apply (bool_decide_eq_true _). vm_compute. reflexivity.
  - vm_compute. reflexivity.
  - vm_compute. discriminate.
  - reflexivity.
  - apply (qt_more (L "a+b=1") [(L "a b", L "1")] true "&" (L "a+b=2") [(L "a b", L "2")] true).
    + apply pc_pair. apply (pt_both (L "a b") (L "1") (L "a+b") (L "1")); eq_spelled.
    + apply (bool_decide_eq_true _). vm_compute. reflexivity.
    + apply qt_last, pc_pair. apply (pt_both (L "a b") (L "2") (L "a+b") (L "2")); eq_spelled.
  - apply (asks_query _ (L "/") (L "a+b=7")); [reflexivity|]. apply (bool_decide_eq_true _). vm_compute. reflexivity.
  - apply qt_last, pc_pair. apply (pt_both (L "a b") (L "7") (L "a+b") (L "7")); eq_spelled.
Qed.
