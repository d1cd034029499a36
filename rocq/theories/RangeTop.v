(** Ranges of static files, downloads and attachments. *)
From Verif Require Import Base GoStr Strconv Pattern Tree TreeSpec Header Router RouterSpec PathClean Ctx Util UtilSpec Content
  UtilFacts TraceSpec Engine EngineSpec ServeThms StaticReg Static StaticSpec StaticFacts StaticTop NetServe CondSpec NetServeFacts NetFile NetRange RangeSpec NetRangeFacts
  CondTop FileSpec FileFacts ContentFacts RedirectFacts HelperSpec HelperLog.
Local Open Scope Z_scope.

Section Top.
Context {A V F O : Type}.
Variable re_ok : gostr -> bool.
Variable re_find : gostr -> gostr -> option (list gostr).
Variable sniff : gostr -> gostr.
Variable parse_form : bool -> request -> gostr * bool -> gmap gostr (list gostr) * bool * gostr.
Variable code : handler A -> prog V.
Variable location : request -> gostr -> gostr.
Variable page : request -> gostr -> Z -> gostr.
Variable parse_time : gostr -> option Z.
Variable modtime : F -> option Z.
Variable http_date : Z -> gostr.
Variable strict : bool.
Variable content : F -> gostr.
Variable ctype : F -> gostr.
Variable bnd : gostr.
Variable serve_file : request -> gostr -> gostr -> gostr -> gostr -> O -> list (gostr * option gostr) * Z * list gostr.
Hypothesis serve_file_valid : forall r t etag enc p os, 100 <= (serve_file r t etag enc p os).1.2 <= 999.
Notation send := (net_send strict content ctype bnd).
Notation serve := (net_serve parse_time modtime http_date send).

Lemma net_valid r t etag enc f : 100 <= (serve r t etag enc f).1.2 <= 999.
Proof.
  unfold net_serve. destruct (checkPreconditions _ _ _ _) as [| |rg|]; [cbn; lia|cbn; lia| |cbn; lia].
  pose proof (send_valid strict content ctype bnd r t enc f rg) as H. by destruct (send r t enc f rg) as [[hs n] out].
Qed.
Lemma check_plain r etag m : unconditional (h_get (rq_header r)) -> checkPreconditions parse_time r etag m = Go (h_get (rq_header r) (L "Range")).
Proof.
  intros (H1 & H2 & H3 & H4 & H5). unfold checkPreconditions, checkIfMatch, checkIfNoneMatch, checkIfUnmodifiedSince, checkIfModifiedSince, checkIfRange.
  rewrite H1, H2, H3, H4, H5. assert (seqb [] [] = true) as -> by done.
  destruct m, (negb _ && negb _), (h_get (rq_header r) (L "Range")); done.
Qed.
(** the file, given the headers so far *)
Lemma net_file_go r t etag f (h0 : header) rg : checkPreconditions parse_time r etag (modtime f) = Go rg -> t = [] \/ h_values h0 (L "Content-Type") = [t] ->
  exists hs n out, serve r t etag [] f = (hs, n, out) /\ (n = 200 \/ n = 206 \/ n = 416) /\
    delivered (content f) (typed ctype t f) bnd (bool_decide (rq_method r = L "HEAD")) rg n (put_headers hs h0) (concat out) /\
    (strict = true -> content f <> [] -> contained (content f) (typed ctype t f) bnd (bool_decide (rq_method r = L "HEAD")) n (put_headers hs h0) (concat out)) /\
    forall k, canon k ∉ [L "Content-Type"; L "Content-Range"; L "X-Content-Type-Options"; L "Accept-Ranges"; L "Content-Length"; L "Last-Modified"] ->
      h_get (put_headers hs h0) k = h_get h0 k.
Proof.
  clear location page. intros Hu Ht. unfold net_serve. rewrite Hu.
  set (lm := match modtime f with Some m => [(L "Last-Modified", Some (http_date m))] | None => [] end).
  destruct (send r t [] f rg) as [[hs n] out] eqn:E. destruct (send_keys strict content ctype bnd r t [] f rg hs n out E) as [Hn Hk].
  assert (put_headers (lm ++ hs) h0 = put_headers hs (put_headers lm h0)) as Happ by apply fold_left_app.
  assert (t = [] \/ h_values (put_headers lm h0) (L "Content-Type") = [t]) as Ht'.
  { destruct Ht as [Ht|Ht]; [by left|]. right. unfold lm. destruct (modtime f); [|done]. by vals. }
  exists (lm ++ hs), n, out. split; [done|]. split; [done|]. split; [|split].
  - rewrite Happ. eapply net_delivered; [exact Ht'|exact E].
  - intros Hst Hne. rewrite Happ. rewrite Hst in E. eapply any_reply; [exact Ht'|exact Hne|exact E].
  - intros k Hin. rewrite !not_elem_of_cons in Hin. destruct Hin as (N1 & N2 & N3 & N4 & N5 & N6 & _). apply put_headers_other.
    intros kv Hkv. apply elem_of_app in Hkv as [Hkv|Hkv].
    + unfold lm in Hkv. destruct (modtime f); [|by apply elem_of_nil in Hkv]. apply elem_of_list_singleton in Hkv as ->. intros Hx. apply N6. rewrite <- Hx. done.
    + apply Hk in Hkv. intros Hx. rewrite Hx, !elem_of_cons, elem_of_nil in Hkv. tauto.
Qed.
Lemma net_file r t etag f (h0 : header) : unconditional (h_get (rq_header r)) -> t = [] \/ h_values h0 (L "Content-Type") = [t] ->
  exists hs n out, serve r t etag [] f = (hs, n, out) /\ (n = 200 \/ n = 206 \/ n = 416) /\
    delivered (content f) (typed ctype t f) bnd (bool_decide (rq_method r = L "HEAD")) (h_get (rq_header r) (L "Range")) n (put_headers hs h0) (concat out) /\
    (strict = true -> content f <> [] -> contained (content f) (typed ctype t f) bnd (bool_decide (rq_method r = L "HEAD")) n (put_headers hs h0) (concat out)) /\
    forall k, canon k ∉ [L "Content-Type"; L "Content-Range"; L "X-Content-Type-Options"; L "Accept-Ranges"; L "Content-Length"; L "Last-Modified"] ->
      h_get (put_headers hs h0) k = h_get h0 k.
Proof. clear location page. intros Hu Ht. apply net_file_go; [by apply check_plain|done]. Qed.
Lemma send_whole r t enc f rg hs out : send r t enc f rg = (hs, 200, out) -> rq_method r <> L "HEAD" -> concat out = content f.
Proof.
  clear location page. intros E Hm. unfold net_send in E. apply seqb_false in Hm. rewrite Hm in E.
  destruct (match t with [] => _ | _ => _ end) as [th t']. destruct (parseRange _ _ _) as [er|l]; [done|].
  destruct (Z.of_nat (length (content f)) <? sumRangesSize l); [|destruct l as [|x [|y l]]]; try done; injection E as _ <-;
    cbn [concat]; by rewrite Nat2Z.id, firstn_all, app_nil_r.
Qed.
(** the tag stays, whatever the request *)
Lemma net_tag r t etag enc f (h0 : header) : h_get (put_headers (serve r t etag enc f).1.1 h0) (L "Etag") = h_get h0 (L "Etag").
Proof.
  clear location page. apply put_headers_other. change (canon (L "Etag")) with (L "Etag"). unfold net_serve.
  set (lm := match modtime f with Some m => [(L "Last-Modified", Some (http_date m))] | None => [] end).
  assert (forall kv, kv ∈ lm -> canon kv.1 <> L "Etag") as Hlm.
  { intros kv Hkv. unfold lm in Hkv. destruct (modtime f); [|by apply elem_of_nil in Hkv]. by apply elem_of_list_singleton in Hkv as ->. }
  destruct (checkPreconditions _ _ _ _) as [| |rg|]; [exact Hlm| | |by intros kv ?%elem_of_nil].
  - intros kv Hkv. cbn [fst] in Hkv. apply elem_of_app in Hkv as [Hkv|Hkv]; [by apply Hlm|]. destruct (seqb etag []); cbn [app] in Hkv;
      rewrite !elem_of_cons, ?elem_of_nil in Hkv; decompose [or] Hkv; subst; done.
  - destruct (send r t enc f rg) as [[hs n] out] eqn:E. apply send_keys in E as [_ E]. intros kv Hkv. cbn [fst] in Hkv.
    apply elem_of_app in Hkv as [Hkv|Hkv]; [by apply Hlm|]. apply E in Hkv. intros Hx. rewrite Hx in Hkv.
    revert Hkv. apply (bool_decide_eq_false _). vm_compute. reflexivity.
Qed.

Lemma static_ranges ops r0 opts e id x r body en px c' v pre h o open os name mtime size base f :
  engine_of re_ok ops r0 opts e -> ServeHTTP re_find sniff parse_form code e id x (arrive r body) = (en, px, c') ->
  (forall n, ~ refused r n) -> sole_route re_ok re_find e v r ->
  Forall literal_seg pre -> rt_variant v = slashed (pre ++ [L "*"]) ->
  rt_handlers v = [h] -> code h = static_handler location page serve serve_file o open os ->
  rq_method r = L "GET" \/ rq_method r = L "HEAD" ->
  file_name pre r name -> open name = Regular mtime size base f -> unconditional (h_get (rq_header r)) ->
  exists n hd, rw_sent (cn_rw c') = Some (n, hd) /\
    delivered (content f) (ctype f) bnd (bool_decide (rq_method r = L "HEAD")) (h_get (rq_header r) (L "Range")) n hd (rw_body (cn_rw c')) /\
    (strict = true -> content f <> [] -> contained (content f) (ctype f) bnd (bool_decide (rq_method r = L "HEAD")) n hd (rw_body (cn_rw c'))) /\
    (so_etag o <> 0%nat -> h_get hd (L "Etag") = file_tag (so_etag o) mtime size base).
Proof.
  intros He H Href Hs Hpre Hv Hh Hc Hm Hn Ho Hu.
  destruct (static_served re_ok re_find sniff parse_form code location page serve serve_file
    (fun r t etag enc f => proj2 (code_ok _) (net_valid r t etag enc f)) (fun r t etag enc p os => proj2 (code_ok _) (serve_file_valid r t etag enc p os))
    _ _ _ _ _ _ _ _ _ _ _ _ _ _ _ _ _ He H Href Hs Hpre Hv Hh Hc Hm) as (n1 & N1 & _ & a1 & R1 & S1 & B1).
  rewrite (file_name_fun _ _ _ _ N1 Hn), Ho in R1. clear N1 n1.
  inversion R1 as [[H1|H1]|? ? ? ? H1 H2 H3|? ? ? ? H1 H2|H1 H2 H3 loc|H1 H2]; try discriminate H1; injection H1 as <- <- <- <-; subst a1; cbn [fst snd] in S1, B1.
  - destruct Hu as (_ & Hx & _). rewrite Hx in H3. by destruct (proj2 (tag_bytes (so_etag o) mtime size base)).
  - set (h0 := announced o mtime size base) in *.
    destruct (net_file r [] (h_get h0 (L "Etag")) f h0 Hu (or_introl eq_refl)) as (hs & n & out & E & Hn' & D1 & D2 & D3).
    rewrite E in S1, B1. cbn [completed fst snd] in S1, B1. exists n, (put_headers hs h0). split; [done|].
    assert (bears_body n = true) as Hb by (by destruct Hn' as [->|[->| ->]]). rewrite Hb in B1. rewrite B1.
    split; [exact D1|]. split; [exact D2|]. intros Het. rewrite D3; [by apply announced_tag|].
    apply (bool_decide_eq_false _). vm_compute. reflexivity.
Qed.

(** every reply for a file has its tag *)
Lemma static_tags ops r0 opts e id x r body en px c' v pre h o open os name mtime size base f :
  engine_of re_ok ops r0 opts e -> ServeHTTP re_find sniff parse_form code e id x (arrive r body) = (en, px, c') ->
  (forall n, ~ refused r n) -> sole_route re_ok re_find e v r ->
  Forall literal_seg pre -> rt_variant v = slashed (pre ++ [L "*"]) ->
  rt_handlers v = [h] -> code h = static_handler location page serve serve_file o open os ->
  rq_method r = L "GET" \/ rq_method r = L "HEAD" ->
  file_name pre r name -> open name = Regular mtime size base f -> so_etag o <> 0%nat ->
  exists n hd, rw_sent (cn_rw c') = Some (n, hd) /\ h_get hd (L "Etag") = file_tag (so_etag o) mtime size base /\
    (h_get (rq_header r) (L "If-None-Match") = file_tag (so_etag o) mtime size base -> n = 304) /\
    (n = 304 -> rw_body (cn_rw c') = []) /\
    (n = 200 \/ n = 206 \/ n = 304 \/ n = 412 \/ n = 416) /\
    (n = 200 -> rq_method r = L "GET" -> rw_body (cn_rw c') = content f).
Proof.
  intros He H Href Hs Hpre Hv Hh Hc Hm Hn Ho Het.
  pose proof (tag_reply_on re_ok re_find sniff parse_form code location page serve serve_file
    (fun r t etag enc f => proj2 (code_ok _) (net_valid r t etag enc f)) (fun r t etag enc p os => proj2 (code_ok _) (serve_file_valid r t etag enc p os))
    _ _ _ _ _ _ _ _ _ _ _ _ _ _ _ _ _ _ _ _ _ _ He H Href Hs Hpre Hv Hh Hc Hm Hn Ho Het) as R. cbv zeta in R. change static_tag with file_tag in R.
  set (tag := file_tag (so_etag o) mtime size base) in *. set (h0 := announced o mtime size base) in *.
  pose proof (net_tag r [] tag [] f h0) as Hk. assert (h_get h0 (L "Etag") = tag) as Ht by (by apply announced_tag). rewrite Ht in Hk.
  destruct (serve r [] tag [] f) as [[hs n] out] eqn:E. cbn [fst] in Hk. destruct R as [R1 R2].
  destruct (decide (h_get (rq_header r) (L "If-None-Match") = tag)) as [Hi|Hi].
  - destruct (R1 Hi) as [S1 B1]. exists 304, h0. split; [done|]. split; [done|]. split; [done|]. split; [done|]. split; [auto|]. done.
  - destruct (R2 Hi) as [S1 B1]. exists n, (put_headers hs h0). split; [done|]. split; [exact Hk|]. split; [done|].
    split; [intros ->; exact B1|]. unfold net_serve in E. destruct (checkPreconditions _ _ _ _) as [| |rg|] eqn:Ec.
    + injection E as _ <- _. split; [auto|done].
    + injection E as _ <- _. split; [auto|done].
    + destruct (send r [] [] f rg) as [[hs' n'] out'] eqn:Es. injection E as _ <- <-. destruct (send_keys _ _ _ _ _ _ _ _ _ _ _ _ Es) as [Hn' _]. split; [tauto|].
      intros -> Hg. rewrite B1. change (body_allowed 200) with true. cbv iota. eapply send_whole; [exact Es|by rewrite Hg].
    + exfalso. eapply checked_total. exact Ec.
Qed.

(** requests with conditions *)
Lemma static_cond_ranges e r tag f c' :
  (forall s u, parse_time s = Some u -> """"%char ∉ s) ->
  file_request re_ok re_find sniff parse_form code location page parse_time modtime http_date send serve_file e r tag f c' ->
  tags_or_star (h_get (rq_header r) (L "If-Match")) -> tags_or_star (h_get (rq_header r) (L "If-None-Match")) ->
  exists a n hd, answers parse_time tag (modtime f) (h_get (rq_header r)) a /\ rw_sent (cn_rw c') = Some (n, hd) /\ h_get hd (L "Etag") = tag /\
    match a with
    | Precondition => n = 412 /\ rw_body (cn_rw c') = []
    | NotModified => n = 304 /\ rw_body (cn_rw c') = []
    | CondSpec.Content rg =>
        delivered (content f) (ctype f) bnd (bool_decide (rq_method r = L "HEAD")) rg n hd (rw_body (cn_rw c')) /\
        (strict = true -> content f <> [] -> contained (content f) (ctype f) bnd (bool_decide (rq_method r = L "HEAD")) n hd (rw_body (cn_rw c')))
    end.
Proof.
  intros Hdates (ops & r0 & opts & id & x & body & en & px & v & pre & h & o & open & os & name & mtime & size & base &
    He & H & Href & Hs & Hpre & Hv & Hh & Hc & Hm & Hn & Ho & Het & Htag) Hs1 Hs2.
  destruct (tag_bytes (so_etag o) mtime size base) as [HT HTn]. change file_tag with static_tag in Htag. rewrite <- Htag in HT, HTn.
  pose proof (tag_reply_on re_ok re_find sniff parse_form code location page serve serve_file
    (fun r t etag enc f => proj2 (code_ok _) (net_valid r t etag enc f)) (fun r t etag enc p os => proj2 (code_ok _) (serve_file_valid r t etag enc p os))
    _ _ _ _ _ _ _ _ _ _ _ _ _ _ _ _ _ _ _ _ _ _ He H Href Hs Hpre Hv Hh Hc Hm Hn Ho Het) as R. cbv zeta in R. rewrite <- Htag in R.
  set (h0 := announced o mtime size base) in *.
  assert (h_get h0 (L "Etag") = tag) as Ht by (rewrite Htag; by apply announced_tag).
  pose proof (net_tag r [] tag [] f h0) as Hk. rewrite Ht in Hk.
  destruct (serve r [] tag [] f) as [[hs n] out] eqn:E. cbn [fst] in Hk. destruct R as [R1 R2].
  destruct (decide (h_get (rq_header r) (L "If-None-Match") = tag)) as [Ei|Ei].
  { destruct (R1 Ei) as (S1 & B1). exists NotModified, 304, h0. split; [by apply an_same|]. done. }
  destruct (R2 Ei) as (S1 & B1).
  destruct (conditional tag HT parse_time Hdates r (modtime f) Hm HTn Hs1 Hs2 Ei) as (a & Ha & Hans).
  exists a, n, (put_headers hs h0). split; [done|]. split; [done|]. split; [done|].
  destruct (checkPreconditions parse_time r tag (modtime f)) as [| |rg|] eqn:Ec; try done; injection Ha as <-.
  - unfold net_serve in E. rewrite Ec in E. injection E as _ <- <-. done.
  - unfold net_serve in E. rewrite Ec in E. injection E as _ <- <-. done.
  - destruct (net_file_go r [] tag f h0 rg Ec (or_introl eq_refl)) as (hs' & n' & out' & E' & Hn' & D1 & D2 & _).
    rewrite E in E'. injection E' as <- <- <-. assert (body_allowed n = true) as Hb by (by destruct Hn' as [->|[->| ->]]). rewrite Hb in B1. by rewrite B1.
Qed.

Lemma attachment_ranges ops r0 opts (e : engine A) id x r body en px c' (download : bool) name inline f k i l1 l2 :
  engine_of re_ok ops r0 opts e ->
  ServeHTTP re_find sniff parse_form code e id x (arrive r body) = (en, px, c') -> uses_ctx code e ->
  (forall hs, dispatched re_ok re_find e r hs -> exists g, hs !! i = Some g /\
     code g = if download then Download serve (Some (name, f)) inline (fun _ => k) else Attachment serve name inline f k) ->
  cn_log c' = l1 ++ EvStart i :: l2 -> ~ responded l1 ->
  unconditional (h_get (rq_header r)) ->
  h_get (headers_of l1) (L "Content-Encoding") = [] -> h_values (headers_of l1) (L "Content-Type") = [] ->
  let t := if download then L "application/octet-stream" else ctype f in
  exists n hd m l3 out, l2 = m ++ l3 /\ starts m = [] /\ rw_sent (cn_rw c') = Some (n, hd) /\ rw_body (cn_rw c') = out ++ data_of l3 /\
    h_get hd (L "Content-Disposition") = contentDisposition name (disposition inline) /\
    delivered (content f) t bnd (bool_decide (rq_method r = L "HEAD")) (h_get (rq_header r) (L "Range")) n hd out /\
    (strict = true -> content f <> [] -> contained (content f) t bnd (bool_decide (rq_method r = L "HEAD")) n hd out).
Proof.
  clear location page. intros He H Hx Hd Hl Hr Hu Henc Hct t.
  destruct (attach_behind re_ok re_find sniff parse_form code serve _ _ _ _ _ _ _ _ _ _ _ download name inline f k i l1 l2 net_valid He H Hx Hd Hl Hr) as (h1 & Hh & R).
  assert (h_get h1 (L "Content-Encoding") = []) as Henc1.
  { unfold h_get in *. destruct download; [destruct Hh as (_ & _ & _ & _ & _ & _ & _ & Hh)|destruct Hh as (_ & Hh)];
      (rewrite (Hh (L "Content-Encoding")); [exact Henc|]); apply (bool_decide_eq_false _); vm_compute; reflexivity. }
  assert (exists u, h_get h1 (L "Content-Type") = u /\ (u = [] \/ h_values h1 (L "Content-Type") = [u]) /\ typed ctype u f = t) as (u & Hu1 & Hu2 & Hu3).
  { unfold h_get, t. destruct download.
    - destruct Hh as (_ & _ & Hh & _). rewrite Hh. eexists. split; [reflexivity|]. split; [by right|done].
    - destruct Hh as (_ & Hh). rewrite (Hh (L "Content-Type")) by (apply (bool_decide_eq_false _); vm_compute; reflexivity). rewrite Hct. exists []. split_and!; [done|by left|done]. }
  assert (h_get h1 (L "Content-Disposition") = contentDisposition name (disposition inline)) as Hdis.
  { unfold h_get. destruct download; destruct Hh as (Hh & _); by rewrite Hh. }
  rewrite Henc1, Hu1 in R.
  destruct (net_file r u (h_get h1 (L "Etag")) f h1 Hu Hu2) as (hs & n & out & E & Hn' & D1 & D2 & D3). rewrite E in R.
  destruct R as (m & l3 & Hl2 & Hst & Hs & _ & Hb). exists n, (put_headers hs h1), m, l3, (concat out).
  split; [done|]. split; [done|]. split; [done|]. rewrite Hu3 in D1, D2. split; [|split; [|by split]].
  - apply Hb. intros [?|[?|?]]; lia.
  - rewrite D3; [done|]. apply (bool_decide_eq_false _). vm_compute. reflexivity.
Qed.

(** the file of StaticFile or File, and ServeFile *)
Context {D : Type}.
Variable raw_query : request -> gostr.
Variable listing : request -> D -> list (gostr * option gostr) * Z * list gostr.
Hypothesis listing_valid : forall r d, 100 <= (listing r d).1.2 <= 999.
Lemma file_ranges ops r0 opts (e : engine A) id x r body en px c' v h name os p f :
  engine_of re_ok ops r0 opts e -> ServeHTTP re_find sniff parse_form code e id x (arrive r body) = (en, px, c') ->
  (forall n, ~ refused r n) -> sole_route re_ok re_find e v r -> rt_handlers v = [h] ->
  code h = static_file_handler (net_ServeFile raw_query serve listing) name os ->
  opened name p -> os p = Plain f -> ~ dotted (rq_path r) -> ~ ends_in (rq_path r) (L "/index.html") ->
  unconditional (h_get (rq_header r)) ->
  exists n hd, rw_sent (cn_rw c') = Some (n, hd) /\
    delivered (content f) (ctype f) bnd (bool_decide (rq_method r = L "HEAD")) (h_get (rq_header r) (L "Range")) n hd (rw_body (cn_rw c')) /\
    (strict = true -> content f <> [] -> contained (content f) (ctype f) bnd (bool_decide (rq_method r = L "HEAD")) n hd (rw_body (cn_rw c'))).
Proof.
  clear location page. intros He H Href Hs Hh Hc Ho Hp Hd Hi Hu.
  destruct (file_served re_ok re_find sniff parse_form code raw_query serve listing _ _ _ _ _ _ _ _ _ _ _ _ _ _ _ net_valid listing_valid He H Href Hs Hh Hc) as (-> & a & Ha & S1 & B1).
  rewrite (file_answer_unique _ _ _ _ _ _ _ _ _ _ _ Ha (fa_file _ _ _ _ _ _ _ _ _ p f (conj Hd Hi) Ho Hp)) in S1, B1.
  destruct (net_file r [] [] f ∅ Hu (or_introl eq_refl)) as (hs & n & out & E & Hn' & D1 & D2 & _). rewrite E in S1, B1. cbn [fst snd] in S1, B1.
  assert (bears_body n = true) as Hb by (by destruct Hn' as [->|[->| ->]]). rewrite Hb in B1. exists n, (put_headers hs ∅). by rewrite B1.
Qed.
Lemma serve_file_ranges ops r0 opts (e : engine A) id x r body en px c' name os p f k i l1 l2 :
  engine_of re_ok ops r0 opts e -> ServeHTTP re_find sniff parse_form code e id x (arrive r body) = (en, px, c') -> uses_ctx code e ->
  (forall hs, dispatched re_ok re_find e r hs -> exists g, hs !! i = Some g /\ code g = ServeFile raw_query serve listing name os k) ->
  cn_log c' = l1 ++ EvStart i :: l2 -> ~ responded l1 ->
  opened name p -> os p = Plain f -> ~ dotted (rq_path r) -> ~ ends_in (rq_path r) (L "/index.html") ->
  unconditional (h_get (rq_header r)) ->
  h_get (headers_of l1) (L "Content-Encoding") = [] -> h_values (headers_of l1) (L "Content-Type") = [] ->
  exists n hd m l3 out, l2 = m ++ l3 /\ starts m = [] /\ rw_sent (cn_rw c') = Some (n, hd) /\ rw_body (cn_rw c') = out ++ data_of l3 /\
    delivered (content f) (ctype f) bnd (bool_decide (rq_method r = L "HEAD")) (h_get (rq_header r) (L "Range")) n hd out /\
    (strict = true -> content f <> [] -> contained (content f) (ctype f) bnd (bool_decide (rq_method r = L "HEAD")) n hd out).
Proof.
  clear location page. intros He H Hx Hdis Hl Hr Ho Hp Hd Hi Hu Henc Hct.
  destruct (serve_file_behind re_ok re_find sniff parse_form code raw_query serve listing _ _ _ _ _ _ _ _ _ _ _ name os k i l1 l2 net_valid listing_valid He H Hx Hdis Hl Hr)
    as (a & m & l3 & Ha & Hl2 & Hst & S1 & _ & B1).
  rewrite (file_answer_unique _ _ _ _ _ _ _ _ _ _ _ Ha (fa_file _ _ _ _ _ _ _ _ _ p f (conj Hd Hi) Ho Hp)) in S1, B1.
  assert (h_get (headers_of l1) (L "Content-Type") = []) as Hct' by (unfold h_get; by rewrite Hct). rewrite Henc, Hct' in S1, B1.
  destruct (net_file r [] (h_get (headers_of l1) (L "Etag")) f (headers_of l1) Hu (or_introl eq_refl)) as (hs & n & out & E & Hn' & D1 & D2 & _).
  rewrite E in S1, B1. cbn [fst snd] in S1, B1. exists n, (put_headers hs (headers_of l1)), m, l3, (concat out).
  split; [done|]. split; [done|]. split; [done|]. split; [|done]. apply B1. intros [?|[?|?]]; lia.
Qed.
End Top.
