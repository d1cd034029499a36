(** HEAD and GET of handlers and of files, as clients read the replies. *)
From Coq Require Import ZArith NArith.
From Verif Require Import Base GoStr Strconv UtilSpec Header RequestSpec Pattern Tree TreeSpec Router RouterSpec PathClean Ctx CtxFacts Util Getters Content TraceSpec Engine EngineSpec
  ServeThms ServeMore LastingSpec StaticReg Static StaticSpec StaticFacts StaticTop NetServe CondSpec NetFile NetRange RangeSpec NetRangeFacts RangeTop NetHead HeadSpec HeadFacts FileFacts
  NetFrame FrameSpec FrameClaim FrameRead FrameFacts FrameTop FrameSend FrameCut FrameConn FrameRun FrameFile FrameHead.
Local Open Scope Z_scope.

Section Run.
Context {A V : Type}.
Variable re_ok : gostr -> bool.
Variable re_find : gostr -> gostr -> option (list gostr).
Variable sniff : gostr -> gostr.
Variable parse_form : bool -> request -> gostr * bool -> gmap gostr (list gostr) * bool * gostr.
Variable code : handler A -> prog V.
Variable has_token : gostr -> gostr -> bool.
Variable status_text : Z -> option gostr.
Variable keep : bool.
Variable sz : nat.
Hypothesis text_line : forall n t, status_text n = Some t -> bare t.
Hypothesis sniff_line : forall d, one_line (sniff d).
Hypothesis sniff_window : forall a b, (sz <= length a)%nat -> sniff (a ++ b) = sniff a.
Local Notation ServeHTTP := (ServeHTTP re_find sniff parse_form code).
Local Notation bytes ex := (fst (ex_answer has_token status_text sniff keep sz ex)).

Theorem blind_read ops r0 opts e id id' x x' r body px px' c c' hs d d' u u' :
  (forall h, only polite (code h)) -> one_line d -> one_line d' ->
  engine_of re_ok ops r0 opts e -> ServeHTTP e id x (arrive r body) = (EDone, px, c) ->
  ServeHTTP e id' x' (arrive (with_method (L "HEAD") r) body) = (EDone, px', c') ->
  rq_method r = L "GET" -> (forall b d, parse_form b (with_method (L "HEAD") r) d = parse_form b r d) -> (forall n, ~ refused r n) ->
  (forall hs', dispatched re_ok re_find e r hs' <-> hs' = hs) -> (forall hs', dispatched re_ok re_find e (with_method (L "HEAD") r) hs' <-> hs' = hs) ->
  (forall h, h ∈ hs -> method_blind (code h) /\ only param_free (code h) /\ only path_free (code h)) ->
  let ex := mkExchange r d u (cn_rw c) (pieces (cn_log c)) in
  let ex' := mkExchange (with_method (L "HEAD") r) d' u' (cn_rw c') (pieces (cn_log c')) in
  exists n fs fs',
    (forall m rest, reads false (bytes ex) m rest <-> m = (n, fs, rw_body (cn_rw c)) /\ rest = []) /\
    (forall m rest, reads true (bytes ex') m rest <-> m = (n, fs', []) /\ rest = []) /\
    (forall k, is_token k -> canon k ∉ hop_names -> (n = 304 -> canon k <> L "Content-Type") -> field_values k fs' = field_values k fs) /\
    field_values (L "Transfer-Encoding") fs' = [] /\
    forall z, z ∈ field_values (L "Content-Length") fs' -> udecimal z (Z.of_nat (length (rw_body (cn_rw c)))).
Proof using text_line sniff_line sniff_window.
  intros Hp Hd Hd' He H1 H2 Hm Hf Href Hd1 Hd2 Hb ex ex'.
  destruct (head_blind re_ok re_find sniff parse_form code _ _ _ _ _ _ _ _ _ _ _ _ _ _ _ _ _ He H1 H2 Hm Hf Href Hd1 Hd2 Hb) as [_ Hw].
  destruct (finish sniff (cn_rw c)) as [[n h] b] eqn:Hfin. pose proof (finish_body _ _ _ _ _ Hfin) as Hbd. subst b.
  destruct (head_and_get has_token status_text sniff keep sz text_line sniff_line sniff_window ex ex' n h (rw_body (cn_rw c)) (rw_body (cn_rw c))) as (fs & fs' & HH).
  - apply (served_sound sniff parse_form re_find code); [done|]. exists e, id, x, r, body, px, c, d, u. done.
  - apply (served_sound sniff parse_form re_find code); [done|]. exists e, id', x', (with_method (L "HEAD") r), body, px', c', d', u'. done.
  - unfold asks_head. cbn [ex ex_request]. rewrite Hm. done.
  - unfold asks_head. cbn [ex' ex_request with_method rq_method]. done.
  - exact Hfin.
  - cbn [ex' ex_response]. by rewrite <- Hw.
  - by right.
  - by exists n, fs, fs'.
Qed.

Context {F O : Type}.
Variable location : request -> gostr -> gostr.
Variable page : request -> gostr -> Z -> gostr.
Variable parse_time : gostr -> option Z.
Variable modtime : F -> option Z.
Variable http_date : Z -> gostr.
Variable strict : bool.
Variable content : F -> gostr.
Variable ctype : F -> gostr.
Variable bnd : gostr.
Variable serve_file : request -> gostr -> gostr -> gostr -> gostr -> O -> list (gostr * option gostr) * Z * list gostr.
Hypothesis serve_file_valid : forall r t etag enc p os, 100 <= (serve_file r t etag enc p os).1.2 <= 999.
Hypothesis code_proper : forall h, only proper (code h).
Local Notation serve := (net_serve parse_time modtime http_date (net_send strict content ctype bnd)).

Lemma serve_out r etag enc f : rq_method r = L "GET" ->
  (serve (with_method (L "HEAD") r) [] etag enc f).2 = [] \/ (serve (with_method (L "HEAD") r) [] etag enc f).2 = (serve r [] etag enc f).2.
Proof using.
  intros Hm. unfold net_serve. rewrite (check_head parse_time r etag _ Hm). destruct (checkPreconditions _ _ _ _) as [| |rg|]; try (by left).
  unfold net_send. cbn iota. cbn [with_method rq_method]. assert (seqb (L "HEAD") (L "HEAD") = true) as -> by done.
  destruct (parseRange strict rg (Z.of_nat (length (content f)))) as [er|l]; [right; done|left].
  destruct (match (if _ <? _ then _ else _) with [] => _ | _ => _ end) as [[[rh n] s] out]. done.
Qed.
Lemma file_same ops r0 opts e id id' x x' r body body' en en' px px' c c' v v' h h' pre o open os name mtime size base f :
  engine_of re_ok ops r0 opts e -> ServeHTTP e id x (arrive r body) = (en, px, c) ->
  ServeHTTP e id' x' (arrive (with_method (L "HEAD") r) body') = (en', px', c') ->
  rq_method r = L "GET" -> (forall n, ~ refused r n) ->
  sole_route re_ok re_find e v r -> sole_route re_ok re_find e v' (with_method (L "HEAD") r) ->
  Forall literal_seg pre -> rt_variant v = slashed (pre ++ [L "*"]) -> rt_variant v' = slashed (pre ++ [L "*"]) ->
  rt_handlers v = [h] -> rt_handlers v' = [h'] ->
  code h = static_handler location page serve serve_file o open os ->
  code h' = static_handler location page serve serve_file o open os ->
  file_name pre r name -> open name = Regular mtime size base f ->
  exists n hd, finish sniff (cn_rw c) = (n, hd, rw_body (cn_rw c)) /\ finish sniff (cn_rw c') = (n, hd, rw_body (cn_rw c')) /\
    (rw_body (cn_rw c') = [] \/ rw_body (cn_rw c') = rw_body (cn_rw c)).
Proof using serve_file_valid.
  intros He H1 H2 Hm Href Hs Hs' Hpre Hv Hv' Hh Hh' Hc Hc' Hn Ho.
  assert (forall n, ~ refused (with_method (L "HEAD") r) n) as Href' by (intros n Hx; by apply (Href n), head_refused).
  pose proof (net_valid parse_time modtime http_date strict content ctype bnd) as Hnv.
  destruct (static_served re_ok re_find sniff parse_form code location page serve serve_file
    (fun r t etag enc f => proj2 (code_ok _) (Hnv r t etag enc f)) (fun r t etag enc p os => proj2 (code_ok _) (serve_file_valid r t etag enc p os))
    _ _ _ _ _ _ _ _ _ _ _ _ _ _ _ _ _ He H1 Href Hs Hpre Hv Hh Hc (or_introl Hm)) as (n1 & N1 & _ & a1 & R1 & S1 & B1).
  destruct (static_served re_ok re_find sniff parse_form code location page serve serve_file
    (fun r t etag enc f => proj2 (code_ok _) (Hnv r t etag enc f)) (fun r t etag enc p os => proj2 (code_ok _) (serve_file_valid r t etag enc p os))
    _ _ _ _ _ _ _ _ _ _ _ _ _ _ _ _ _ He H2 Href' Hs' Hpre Hv' Hh' Hc' (or_intror eq_refl)) as (n2 & N2 & _ & a2 & R2 & S2 & B2).
  change (file_name pre r n2) in N2. rewrite (file_name_fun _ _ _ _ N2 Hn), Ho in R2. rewrite (file_name_fun _ _ _ _ N1 Hn), Ho in R1. clear N1 N2.
  assert (forall n hd out, net_client sniff r (cn_rw c) = (n, hd, out) -> net_client sniff (with_method (L "HEAD") r) (cn_rw c') = (n, hd, []) ->
    (rw_body (cn_rw c') = [] \/ rw_body (cn_rw c') = rw_body (cn_rw c)) ->
    exists n hd, finish sniff (cn_rw c) = (n, hd, rw_body (cn_rw c)) /\ finish sniff (cn_rw c') = (n, hd, rw_body (cn_rw c')) /\
    (rw_body (cn_rw c') = [] \/ rw_body (cn_rw c') = rw_body (cn_rw c))) as Hend.
  { intros n hd out E1 E2 Hb. unfold net_client in E1, E2.
    destruct (finish sniff (cn_rw c)) as [[n3 h3] b3] eqn:F1. destruct (finish sniff (cn_rw c')) as [[n4 h4] b4] eqn:F2.
    injection E1 as -> -> _. injection E2 as -> ->. exists n, hd.
    by rewrite (finish_body _ _ _ _ _ F1), (finish_body _ _ _ _ _ F2). }
  inversion R1 as [[E1|E1]|mt s1 bs g E1 E2 E3|mt s1 bs g E1 E2|E1 E2 E3 loc|E1 E2]; try discriminate E1; injection E1 as <- <- <- <-; subst a1;
    inversion R2 as [[E4|E4]|mt' s1' bs' g' E4 E5 E6|mt' s1' bs' g' E4 E5|E4 E5 E6 loc'|E4 E5]; try discriminate E4; injection E4 as <- <- <- <-; subst a2.
  - destruct (client_twin sniff r (cn_rw c) (cn_rw c') (announced o mtime size base) ([], 304, []) ([], 304, [])) as (n & hd & out & X1 & X2);
      [done|split; [done|by left]|exact S1|exact B1|exact S2|exact B2|]. apply (Hend _ _ _ X1 X2). left. exact B2.
  - by destruct (E5 E2).
  - by destruct (E2 E5).
  - pose proof (serve_twin parse_time modtime http_date strict content ctype bnd r (h_get (announced o mtime size base) (L "Etag")) [] f (announced o mtime size base) Hm) as Htw.
    pose proof (serve_out r (h_get (announced o mtime size base) (L "Etag")) [] f Hm) as Hout.
    destruct (serve r _ _ _ f) as [[hs n] out]. destruct (serve (with_method (L "HEAD") r) _ _ _ f) as [[hs' n'] out'].
    destruct (client_twin sniff r (cn_rw c) (cn_rw c') (announced o mtime size base) (hs, n, out) (hs', n', out')) as (n3 & hd & out3 & X1 & X2);
      [done|exact Htw|exact S1|exact B1|exact S2|exact B2|]. apply (Hend _ _ _ X1 X2).
    rewrite B1, B2. cbn [completed fst snd] in Hout |- *. destruct Htw as [Htw _]. injection Htw as <- <-.
    destruct Hout as [-> | ->]; [left; by destruct (bears_body n)|by right].
Qed.
Theorem files_read ops r0 opts e id id' x x' r body body' px px' c c' v v' h h' pre o open os name mtime size base f d d' u u' :
  engine_of re_ok ops r0 opts e -> ServeHTTP e id x (arrive r body) = (EDone, px, c) ->
  ServeHTTP e id' x' (arrive (with_method (L "HEAD") r) body') = (EDone, px', c') ->
  rq_method r = L "GET" -> (forall n, ~ refused r n) ->
  sole_route re_ok re_find e v r -> sole_route re_ok re_find e v' (with_method (L "HEAD") r) ->
  Forall literal_seg pre -> rt_variant v = slashed (pre ++ [L "*"]) -> rt_variant v' = slashed (pre ++ [L "*"]) ->
  rt_handlers v = [h] -> rt_handlers v' = [h'] ->
  code h = static_handler location page serve serve_file o open os ->
  code h' = static_handler location page serve serve_file o open os ->
  file_name pre r name -> open name = Regular mtime size base f -> one_line d -> one_line d' -> strict = true -> content f <> [] ->
  (forall n hd z m, rw_sent (cn_rw c) = Some (n, hd) \/ rw_sent (cn_rw c') = Some (n, hd) -> has hd (L "Content-Length") z -> udecimal z m -> m < 2 ^ 63) ->
  let ex := mkExchange r d u (cn_rw c) (pieces (cn_log c)) in
  let ex' := mkExchange (with_method (L "HEAD") r) d' u' (cn_rw c') (pieces (cn_log c')) in
  exists n fs fs',
    (forall m rest, reads false (bytes ex) m rest <-> m = (n, fs, rw_body (cn_rw c)) /\ rest = []) /\
    (forall m rest, reads true (bytes ex') m rest <-> m = (n, fs', []) /\ rest = []) /\
    (forall k, is_token k -> canon k ∉ hop_names -> (n = 304 -> canon k <> L "Content-Type") -> field_values k fs' = field_values k fs) /\
    field_values (L "Transfer-Encoding") fs' = [] /\
    forall z, z ∈ field_values (L "Content-Length") fs' -> udecimal z (Z.of_nat (length (rw_body (cn_rw c)))).
Proof using text_line sniff_line sniff_window serve_file_valid code_proper.
  intros He H1 H2 Hm Href Hs Hs' Hpre Hv Hv' Hh Hh' Hc Hc' Hn Ho Hd Hd' Hst Hne Hb ex ex'.
  assert (forall n, ~ refused (with_method (L "HEAD") r) n) as Href' by (intros n Hx; by apply (Href n), head_refused).
  destruct (file_same _ _ _ _ _ _ _ _ _ _ _ _ _ _ _ _ _ _ _ _ _ _ _ _ _ _ _ _ _ _ He H1 H2 Hm Href Hs Hs' Hpre Hv Hv' Hh Hh' Hc Hc' Hn Ho) as (n & hd & F1 & F2 & Hbd).
  destruct (head_and_get has_token status_text sniff keep sz text_line sniff_line sniff_window ex ex' n hd (rw_body (cn_rw c)) (rw_body (cn_rw c'))) as (fs & fs' & HH).
  - apply (any_sound re_ok re_find sniff parse_form code location page parse_time modtime http_date strict content ctype bnd serve_file has_token serve_file_valid code_proper
      _ _ _ _ _ _ _ _ _ _ _ _ _ _ _ _ _ _ _ _ _ d u He H1 Href Hs Hpre Hv Hh Hc (or_introl Hm) Hn Ho Hd Hst Hne).
    intros n0 h0 z m Hx. apply (Hb n0 h0). by left.
  - apply (any_sound re_ok re_find sniff parse_form code location page parse_time modtime http_date strict content ctype bnd serve_file has_token serve_file_valid code_proper
      _ _ _ _ _ _ _ _ _ _ _ _ _ _ _ _ _ _ _ _ _ d' u' He H2 Href' Hs' Hpre Hv' Hh' Hc' (or_intror eq_refl) Hn Ho Hd' Hst Hne).
    intros n0 h0 z m Hx. apply (Hb n0 h0). by right.
  - unfold asks_head. cbn [ex ex_request]. rewrite Hm. done.
  - unfold asks_head. cbn [ex' ex_request with_method rq_method]. done.
  - exact F1.
  - exact F2.
  - exact Hbd.
  - by exists n, fs, fs'.
Qed.
End Run.
