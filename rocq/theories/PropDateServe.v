(** Properties of files asked for with dates, however they are sent. *)
From Verif Require Import Base GoStr Strconv Pattern Tree TreeSpec Header Router RouterSpec PathClean Ctx Util UtilSpec Content
  TraceSpec Engine EngineSpec ServeThms StaticReg Static StaticSpec StaticTop NetServe NetFile NetRange RangeSpec NetRangeFacts RedirectFacts HelperLog HelperSpec
  CondSpec CondTop FileSpec FileFacts CtxFacts NetDate NetDateOld DateSpec DateOldSpec DateAnswerSpec DateFacts DateOld DateServe ExampleRegexp ExampleRouter ExampleServe PropStatic PropCond PropRange PropDate.
Local Open Scope Z_scope.

(** ** C121 *)
(** A file of a static route, with or without tags, asked for with GET or HEAD and with a
    date of one of the three forms as the only condition, or none (DateAnswerSpec.by_date): 412 or 304 without a body,
    or what is sent for the Range that counts, with the date of its modification.  Partial:
    RangeSpec.delivered has the limits of C109. *)
Theorem C121_static_partial :
  forall (A V F O : Type) zoned re_ok re_find sniff parse_form (code : handler A -> prog V) (modtime : F -> option Z) strict content ctype bnd
    location page (serve_file : request -> gostr -> gostr -> gostr -> gostr -> O -> list (gostr * option gostr) * Z * list gostr),
  (forall r t etag enc p os, 100 <= (serve_file r t etag enc p os).1.2 <= 999) ->
  let serve := net_serve (net_parse_time (net_parse_old zoned)) modtime net_date (net_send strict content ctype bnd) in
  forall ops r0 opts (e : engine A) id x r body en px c' v pre h o open os name mtime size base f tm a,
  engine_of re_ok ops r0 opts e -> ServeHTTP re_find sniff parse_form code e id x (arrive r body) = (en, px, c') ->
  (forall n, ~ refused r n) -> sole_route re_ok re_find e v r ->
  Forall literal_seg pre -> rt_variant v = slashed (pre ++ [L "*"]) ->
  rt_handlers v = [h] -> code h = static_handler location page serve serve_file o open os ->
  rq_method r = L "GET" \/ rq_method r = L "HEAD" ->
  file_name pre r name -> open name = Regular mtime size base f ->
  modtime f = Some tm -> by_date (h_get (rq_header r)) tm a ->
  exists n hd, rw_sent (cn_rw c') = Some (n, hd) /\
    (so_etag o <> 0%nat -> h_get hd (L "Etag") = file_tag (so_etag o) mtime size base) /\
    match a with
    | Precondition => n = 412 /\ rw_body (cn_rw c') = [] /\ (four_digits tm -> fixdate (h_get hd (L "Last-Modified")) tm)
    | NotModified => n = 304 /\ rw_body (cn_rw c') = []
    | CondSpec.Content rg => (four_digits tm -> fixdate (h_get hd (L "Last-Modified")) tm) /\
        delivered (content f) (ctype f) bnd (bool_decide (rq_method r = L "HEAD")) rg n hd (rw_body (cn_rw c'))
    end.
Proof. intros A V F O zoned re_ok re_find sniff parse_form code modtime strict content ctype bnd location page serve_file Hv serve. eapply dated_static; exact Hv. Qed.
Print Assumptions C121_static_partial.
(** The same for the file of StaticFile, or of a route whose only handler calls File, where
    the path of the request is not special to http.ServeFile (C100). *)
Theorem C121_static_file_partial :
  forall (A V F D : Type) zoned re_ok re_find sniff parse_form (code : handler A -> prog V) (modtime : F -> option Z) strict content ctype bnd
    raw_query (listing : request -> D -> list (gostr * option gostr) * Z * list gostr),
  (forall r d, 100 <= (listing r d).1.2 <= 999) ->
  let serve := net_serve (net_parse_time (net_parse_old zoned)) modtime net_date (net_send strict content ctype bnd) in
  forall ops r0 opts (e : engine A) id x r body en px c' v h name os p f tm a,
  engine_of re_ok ops r0 opts e -> ServeHTTP re_find sniff parse_form code e id x (arrive r body) = (en, px, c') ->
  (forall n, ~ refused r n) -> sole_route re_ok re_find e v r -> rt_handlers v = [h] ->
  code h = static_file_handler (net_ServeFile raw_query serve listing) name os ->
  opened name p -> os p = Plain f -> ~ dotted (rq_path r) -> ~ ends_in (rq_path r) (L "/index.html") ->
  modtime f = Some tm -> rq_method r = L "GET" \/ rq_method r = L "HEAD" -> by_date (h_get (rq_header r)) tm a ->
  exists n hd, rw_sent (cn_rw c') = Some (n, hd) /\
    match a with
    | Precondition => n = 412 /\ rw_body (cn_rw c') = [] /\ (four_digits tm -> fixdate (h_get hd (L "Last-Modified")) tm)
    | NotModified => n = 304 /\ rw_body (cn_rw c') = []
    | CondSpec.Content rg => (four_digits tm -> fixdate (h_get hd (L "Last-Modified")) tm) /\
        delivered (content f) (ctype f) bnd (bool_decide (rq_method r = L "HEAD")) rg n hd (rw_body (cn_rw c'))
    end.
Proof. intros A V F D zoned re_ok re_find sniff parse_form code modtime strict content ctype bnd raw_query listing Hv. exact (dated_static_file zoned re_ok re_find sniff parse_form code modtime strict content ctype bnd raw_query listing Hv). Qed.
Print Assumptions C121_static_file_partial.
(** The same for a download or an attachment, by any handler in the chain, if none before
    it has answered or set Content-Type or Content-Encoding; whatever ETag they have set. *)
Theorem C121_attachments_partial :
  forall (A V F : Type) zoned re_ok re_find sniff parse_form (code : handler A -> prog V) (modtime : F -> option Z) strict content ctype bnd,
  let serve := net_serve (net_parse_time (net_parse_old zoned)) modtime net_date (net_send strict content ctype bnd) in
  forall ops r0 opts (e : engine A) id x r body en px c' (download : bool) name inline f tm k i l1 l2 a,
  engine_of re_ok ops r0 opts e ->
  ServeHTTP re_find sniff parse_form code e id x (arrive r body) = (en, px, c') -> uses_ctx code e ->
  (forall hs, dispatched re_ok re_find e r hs -> exists g, hs !! i = Some g /\
     code g = if download then Download serve (Some (name, f)) inline (fun _ => k) else Attachment serve name inline f k) ->
  cn_log c' = l1 ++ EvStart i :: l2 -> ~ responded l1 ->
  modtime f = Some tm -> rq_method r = L "GET" \/ rq_method r = L "HEAD" -> by_date (h_get (rq_header r)) tm a ->
  h_get (headers_of l1) (L "Content-Encoding") = [] -> h_values (headers_of l1) (L "Content-Type") = [] ->
  let t := if download then L "application/octet-stream" else ctype f in
  exists n hd m l3, l2 = m ++ l3 /\ starts m = [] /\ rw_sent (cn_rw c') = Some (n, hd) /\
    h_get hd (L "Content-Disposition") = contentDisposition name (disposition inline) /\
    match a with
    | Precondition => n = 412 /\ rw_body (cn_rw c') = data_of l3 /\ (four_digits tm -> fixdate (h_get hd (L "Last-Modified")) tm)
    | NotModified => n = 304 /\ rw_body (cn_rw c') = []
    | CondSpec.Content rg => exists out, rw_body (cn_rw c') = out ++ data_of l3 /\ (four_digits tm -> fixdate (h_get hd (L "Last-Modified")) tm) /\
        delivered (content f) t bnd (bool_decide (rq_method r = L "HEAD")) rg n hd out
    end.
Proof. intros A V F zoned re_ok re_find sniff parse_form code modtime strict content ctype bnd. exact (dated_attachment zoned re_ok re_find sniff parse_form code modtime strict content ctype bnd). Qed.
Print Assumptions C121_attachments_partial.
(** The same for ServeFile in any handler of a chain. *)
Theorem C121_serve_file_partial :
  forall (A V F D : Type) zoned re_ok re_find sniff parse_form (code : handler A -> prog V) (modtime : F -> option Z) strict content ctype bnd
    raw_query (listing : request -> D -> list (gostr * option gostr) * Z * list gostr),
  (forall r d, 100 <= (listing r d).1.2 <= 999) ->
  let serve := net_serve (net_parse_time (net_parse_old zoned)) modtime net_date (net_send strict content ctype bnd) in
  forall ops r0 opts (e : engine A) id x r body en px c' name os p f tm k i l1 l2 a,
  engine_of re_ok ops r0 opts e -> ServeHTTP re_find sniff parse_form code e id x (arrive r body) = (en, px, c') -> uses_ctx code e ->
  (forall hs, dispatched re_ok re_find e r hs -> exists g, hs !! i = Some g /\ code g = ServeFile raw_query serve listing name os k) ->
  cn_log c' = l1 ++ EvStart i :: l2 -> ~ responded l1 ->
  opened name p -> os p = Plain f -> ~ dotted (rq_path r) -> ~ ends_in (rq_path r) (L "/index.html") ->
  modtime f = Some tm -> rq_method r = L "GET" \/ rq_method r = L "HEAD" -> by_date (h_get (rq_header r)) tm a ->
  h_get (headers_of l1) (L "Content-Encoding") = [] -> h_values (headers_of l1) (L "Content-Type") = [] ->
  exists n hd m l3, l2 = m ++ l3 /\ starts m = [] /\ rw_sent (cn_rw c') = Some (n, hd) /\
    match a with
    | Precondition => n = 412 /\ rw_body (cn_rw c') = data_of l3 /\ (four_digits tm -> fixdate (h_get hd (L "Last-Modified")) tm)
    | NotModified => n = 304 /\ rw_body (cn_rw c') = []
    | CondSpec.Content rg => exists out, rw_body (cn_rw c') = out ++ data_of l3 /\ (four_digits tm -> fixdate (h_get hd (L "Last-Modified")) tm) /\
        delivered (content f) (ctype f) bnd (bool_decide (rq_method r = L "HEAD")) rg n hd out
    end.
Proof. intros A V F D zoned re_ok re_find sniff parse_form code modtime strict content ctype bnd raw_query listing Hv. exact (dated_file zoned re_ok re_find sniff parse_form code modtime strict content ctype bnd raw_query listing Hv). Qed.
Print Assumptions C121_serve_file_partial.

(** The two old forms are read as the moments that they mean too, and a text of one of the
    three forms means one moment. *)
Theorem C121_old_forms :
  (forall zoned s t, rfc850_date s t -> net_parse_time (net_parse_old zoned) s = Some t) /\
  (forall zoned s t, asctime_date s t -> net_parse_time (net_parse_old zoned) s = Some t) /\
  (forall s t t', any_date s t -> any_date s t' -> t = t').
Proof.
  split; [intros zoned s t H; apply any_reads; by right; left|]. split; [intros zoned s t H; apply any_reads; by right; right|]. exact any_fun.
Qed.
Print Assumptions C121_old_forms.

(** The conditions of a request determine the answer. *)
Theorem C121_one_answer : forall (hd : header) t a a', by_date (h_get hd) t a -> by_date (h_get hd) t a' -> a = a'.
Proof. exact (by_date_fun (fun _ _ => None)). Qed.
Print Assumptions C121_one_answer.

(** *** Cases that meet the hypotheses: a static route without tags, a download, an
    attachment, StaticFile and ServeFile *)
Definition fm_serve := net_serve (net_parse_time (net_parse_old (fun _ _ => None))) (fun _ : gostr => Some fl_then) net_date fl_send.
Definition fm_long : gostr := L "Sunday, 06-Nov-94 08:49:37 GMT".
Definition fm_asc : gostr := L "Sun Nov  6 08:49:37 1994".
Definition fm_opts : static_opts := mkSO (L "index.html") None 0.
Definition fm_code (h : handler nat) : prog gostr :=
  match h with
  | HFuncCtx 1%nat => static_handler fx_location fx_page fm_serve fx_file fm_opts ev_open []
  | HFuncCtx 2%nat => Download fm_serve (Some (L "a.txt", L "abc")) true (fun _ => PRet)
  | HFuncCtx 3%nat => Attachment fm_serve (L "a.txt") false (L "abc") PRet
  | HFuncCtx 4%nat => static_file_handler (net_ServeFile (fun _ => []) fm_serve ev_list) (L "web/a.txt") ev_os
  | HFuncCtx 5%nat => ServeFile (fun _ => []) fm_serve ev_list (L "web/a.txt") ev_os PRet
  | _ => PRet
  end.
Definition fm_req (path : gostr) (hd : header) : request := mkReq (L "GET") 1 1 path path hd (L "192.0.2.1:9") false.
Notation fm_run e r := (ServeHTTP ex_find ex_sniff ex_form fm_code e 0 newContext (arrive r no_body)).
Definition fm_seen (path : gostr) (e : engine nat) : list (Z * gostr * gostr) :=
  map (fun hd => let c := (fm_run e (fm_req path hd)).2 in
    match rw_sent (cn_rw c) with Some (n, h) => (n, h_get h (L "Last-Modified"), rw_body (cn_rw c)) | None => (0, [], rw_body (cn_rw c)) end)
  [ ∅; {[ L "If-Modified-Since" := [fl_text] ]}; {[ L "If-Modified-Since" := [net_date (fl_then - 1)] ]};
    {[ L "If-Unmodified-Since" := [fm_long] ]}; {[ L "If-Unmodified-Since" := [net_date (fl_then - 1)] ]};
    <[ L "Range" := [L "bytes=1-"] ]> {[ L "If-Range" := [fm_asc] ]}; <[ L "Range" := [L "bytes=1-"] ]> {[ L "If-Range" := [net_date (fl_then - 1)] ]} ].
Definition fm_all : list (Z * gostr * gostr) :=
  [(200, fl_text, L "abc"); (304, fl_text, []); (200, fl_text, L "abc"); (200, fl_text, L "abc"); (412, fl_text, []); (206, fl_text, L "bc"); (200, fl_text, L "abc")].
Lemma fm_only k s : k ∈ [L "If-Modified-Since"; L "If-Unmodified-Since"; L "If-Range"] -> only_condition (h_get {[ k := [s] ]}) k s.
Proof.
  intros Hk. assert (canon k = k) as Hc by (repeat (apply elem_of_cons in Hk as [->|Hk]; [by vm_compute|]); by apply elem_of_nil in Hk).
  split; [unfold h_get, h_values; by rewrite Hc, lookup_singleton|].
  intros k' Hk' Hne. assert (canon k' = k') as Hc' by (repeat (apply elem_of_cons in Hk' as [->|Hk']; [by vm_compute|]); by apply elem_of_nil in Hk').
  unfold h_get, h_values. by rewrite Hc', lookup_singleton_ne.
Qed.
Example C121_answers_case :
  by_date (h_get ∅) fl_then (CondSpec.Content []) /\
  rfc850_date fm_long fl_then /\ asctime_date fm_asc fl_then /\
  by_date (h_get {[ L "If-Modified-Since" := [fl_text] ]}) fl_then NotModified /\
  by_date (h_get {[ L "If-Unmodified-Since" := [net_date (fl_then - 1)] ]}) fl_then Precondition /\
  by_date (h_get {[ L "If-Range" := [net_date (fl_then - 1)] ]}) fl_then (CondSpec.Content []).
Proof.
  assert (fixdate fl_text fl_then) as H1 by (apply (C121_written fl_then fl_years)).
  assert (fixdate (net_date (fl_then - 1)) (fl_then - 1)) as H2.
  { apply C121_written. destruct fl_years as (d & d' & Hd & Hd' & _). exists (-719528), 2932897.
    split; [exact (DateFacts.falls_absDate (-719528))|]. split; [exact (DateFacts.falls_absDate 2932897)|]. unfold fl_then. lia. }
  assert (falls 9075 (1994, 11, 6)) as Hf by exact (falls_absDate 9075).
  assert (time_of_day 31777 (L "08:49:37")) as Hd.
  { exists 8, 49, 37, (L "08"), (L "49"), (L "37"). split_and!; try lia; try reflexivity;
      [exact (append2_decimal 8 ltac:(lia))|exact (append2_decimal 49 ltac:(lia))|exact (append2_decimal 37 ltac:(lia))]. }
  split; [exact (bd_plain (h_get ∅) fl_then ltac:(by vm_compute))|].
  split.
  { exists 9075, 31777, 1994, 11, 6, (L "Sunday"), (L "Nov"), (L "06"), (L "94"), (L "08:49:37").
    split; [exact Hf|]. split; [done|]. split; [lia|]. split; [unfold long_day; by apply (bool_decide_eq_true _)|]. split; [unfold month_name; by apply (bool_decide_eq_true _)|].
    split; [exact (append2_decimal 6 ltac:(lia))|]. split; [exact (append2_decimal 94 ltac:(lia))|]. by split. }
  split.
  { exists 9075, 31777, 1994, 11, 6, (L "Sun"), (L "Nov"), (L " 6"), (L "1994"), (L "08:49:37").
    split; [exact Hf|]. split; [done|]. split; [unfold day_name; by apply (bool_decide_eq_true _)|]. split; [unfold month_name; by apply (bool_decide_eq_true _)|].
    split. { right. exists (L "6"). split; [|done]. exact (de_S 0 0 [] "6"%char de_0 ltac:(vm_compute; lia)). }
    split; [exact (append4_decimal 1994 ltac:(lia))|]. by split. }
  split; [eapply bd_same; [apply fm_only; by apply (bool_decide_eq_true _)|left; exact H1|lia]|].
  split; [eapply bd_failed; [apply fm_only; by apply (bool_decide_eq_true _)|left; exact H2|lia]|].
  eapply bd_all; [apply fm_only; by apply (bool_decide_eq_true _)|left; exact H2|lia].
Qed.
Lemma fm_accepted path hd : path = L "/" \/ path = L "/f/a.txt" -> h_get hd (L "Expect") = [] -> forall n, ~ refused (fm_req path hd) n.
Proof.
  intros Hp Hx n [[H|[H|H]]|_ H]; (destruct Hp as [-> | ->]); [..|apply H; by left|apply H; by left];
    [destruct H as [H|[_ H]]; discriminate H|destruct H as [H|[_ H]]; discriminate H|discriminate H..].
Qed.
Example C121_static_case :
  so_etag fm_opts = 0%nat /\
  exists e v, engine_of ex_ok fx_ops 0 [] e /\ Forall literal_seg [L "f"] /\ rt_variant v = slashed ([L "f"] ++ [L "*"]) /\ rt_handlers v = [HFuncCtx 1%nat] /\
    (forall hd, h_get hd (L "Expect") = [] -> (forall n, ~ refused (fm_req (L "/f/a.txt") hd) n) /\
      sole_route ex_ok ex_find e v (fm_req (L "/f/a.txt") hd) /\ file_name [L "f"] (fm_req (L "/f/a.txt") hd) (L "a.txt")) /\
    ev_open (L "a.txt") = Regular 7 3 (L "a.txt") (L "abc") /\ fm_seen (L "/f/a.txt") e = fm_all.
Proof.
  split; [reflexivity|]. destruct fx_engine as (e & v & He & _ & Hv & Hh & Hsole). exists e, v.
  split; [exact He|]. split; [exact fx_literal|]. split; [exact Hv|]. split; [exact Hh|]. split.
  { intros hd Hx. split; [apply fm_accepted; [by right|done]|]. split; [exact (Hsole (L "/f/a.txt") [L "a.txt"] eq_refl ltac:(done))|by exists [L "a.txt"]]. }
  split; [reflexivity|]. apply (with_engine_fun ex_ok fx_ops [] (fm_seen (L "/f/a.txt")) _ e); [vm_compute; reflexivity|exact He].
Qed.
Example C121_handlers_case : forall j, j ∈ [2; 3; 4; 5]%nat ->
  opened (L "web/a.txt") (L "web/a.txt") /\ ev_os (L "web/a.txt") = Plain (L "abc") /\
  ~ dotted (L "/") /\ ~ ends_in (L "/") (L "/index.html") /\
  exists e v, engine_of ex_ok (ev_ops j) 0 [] e /\ rt_handlers v = [HFuncCtx j] /\
    (forall hd, h_get hd (L "Expect") = [] -> (forall n, ~ refused (fm_req (L "/") hd) n) /\ sole_route ex_ok ex_find e v (fm_req (L "/") hd)) /\
    (forall hd hs, dispatched ex_ok ex_find e (fm_req (L "/") hd) hs -> hs !! 0%nat = Some (HFuncCtx j)) /\
    fm_seen (L "/") e = fm_all.
Proof.
  intros j Hj. split.
  { exists (L "web/"), (L "a.txt"). split; [|done]. split; [done|]. split; [apply (bool_decide_eq_false _); by vm_compute|]. right. by exists (L "web"). }
  split; [done|]. split; [intros H; apply dotted_spec in H; by vm_compute in H|]. split; [intros H; apply ends_spec in H; by vm_compute in H|].
  assert (exists e, engine_of ex_ok (ev_ops j) 0 [] e /\ (routes e, chains e) = ([mkRoute (L "GET") (L "/") (L "/") [HFuncCtx j]], ([(L "GET", [HFuncCtx j])], [])) /\
    fm_seen (L "/") e = fm_all) as (e & He & Hr & H2).
  { repeat (apply elem_of_cons in Hj as [->|Hj]; [match goal with |- context [ev_ops ?i] =>
      edestruct (with_engine_split ex_ok (ev_ops i) [] (fun e => ((routes e, chains e), fm_seen (L "/") e))) as (e & He & Hs); [vm_compute; reflexivity|];
      apply pair_equal_spec in Hs as [Hs H2]; exists e; split; [exact He|]; split; [exact Hs|exact H2] end|]). by apply elem_of_nil in Hj. }
  apply pair_equal_spec in Hr as [Hr Hc].
  exists e, (mkRoute (L "GET") (L "/") (L "/") [HFuncCtx j]). split; [exact He|]. split; [reflexivity|]. split.
  { intros hd Hx. split; [apply fm_accepted; [by left|done]|]. split; [rewrite Hr; left|]. split.
    - split; [reflexivity|]. eexists. split; [apply calc_route_ok; vm_compute; reflexivity|]. apply accepts_last. reflexivity.
    - intros u Hu _. rewrite Hr in Hu. by apply elem_of_list_singleton in Hu. }
  split; [|exact H2]. intros hd hs Hd. apply (dispatched_chains _ _ _ _ _ _ Hc) in Hd. apply elem_of_list_singleton in Hd. by injection Hd as ->.
Qed.
