(** The helpers that set headers first: redirects, attachments, downloads. *)
From Verif Require Import Base GoStr Strconv Util Pattern Tree TreeSpec Header Router Ctx CtxFacts TraceSpec Engine EngineSpec
  ServeFacts ServeProps ServeTop ServeDispatch Content ContentFacts CorsFacts.
Local Open Scope Z_scope.

Section Facts.
Context {A V F : Type}.
Variable re_ok : gostr -> bool.
Variable re_find : gostr -> gostr -> option (list gostr).
Variable sniff : gostr -> gostr.
Variable parse_form : bool -> request -> gostr * bool -> gmap gostr (list gostr) * bool * gostr.
Variable code : handler A -> prog V.
Implicit Types x y : ctxobj A V.
Implicit Types c : conn V.
Local Notation call := (call sniff parse_form).
Local Notation pexec := (pexec sniff parse_form).
Local Notation ran := (ran sniff parse_form code).

Lemma exec_deliver (next : ctxobj A V -> conn V -> ending * (ctxobj A V * conn V)) os n out k x c :
  Forall headerly os -> x_written x = false -> rw_sent (cn_rw c) = None -> valid_code n = true ->
  exists x' c', pexec next (seqp (os ++ [OWriteHeader n] ++ map OWrite out) k) x c = pexec next k x' c' /\
    rw_sent (cn_rw c') = Some (n, fold_left hop os (rw_hdr (cn_rw c))) /\
    rw_body (cn_rw c') = rw_body (cn_rw c) ++ if body_allowed n then concat out else [].
Proof.
  intros Hos Hw Hs Hn. rewrite seqp_app.
  destruct (exec_headers sniff parse_form next os (seqp ([OWriteHeader n] ++ map OWrite out) k) Hos x c)
    as (c1 & l & -> & Hrw & _). cbn [app]. rewrite pexec_seqp.
  rewrite call_WriteHeader; [|done|by rewrite Hrw|done]. cbn iota.
  match goal with |- context [pexec next _ ?x2 ?c2] =>
    destruct (exec_writes sniff parse_form next out k x2 c2 n (rw_hdr (cn_rw c1))) as (c3 & -> & H1 & H2 & H3); [done|done|];
    exists x2, c3 end.
  split; [done|]. rewrite H1, H3. cbn [log cn_rw rw_body set_rw]. rewrite Hrw. done.
Qed.

Lemma fold_spared os k : Forall headerly os ->
  (forall o : op V, o ∈ os -> match o with OHeaderSet k' _ | OHeaderAdd k' _ | OHeaderDel k' => canon k' <> canon k | _ => True end) ->
  forall h, h_values (fold_left hop os h) k = h_values h k.
Proof.
  induction 1 as [|o os Ho Hos IH]; intros Hk h; [done|]. cbn [fold_left]. rewrite IH.
  - rewrite h_values_hop. specialize (Hk o (elem_of_list_here _ _)).
    destruct o; try done; by rewrite (proj2 (seqb_false _ _) Hk).
  - intros o' Ho'. apply Hk. by right.
Qed.

(** ** Redirects *)
Section Redirect.
Variable location : request -> gostr -> gostr.
Variable page : request -> gostr -> Z -> gostr.
Lemma redirect_response h uri n id ps nd r body en c' :
  code h = Redirect location page uri n PRet -> valid_code n = true -> body_allowed n = true -> ran id [h] ps nd r body en c' ->
  en = EDone /\ exists hd, rw_sent (cn_rw c') = Some (n, hd) /\
    rw_body (cn_rw c') = (if decide (rq_method r = L "GET") then page r uri n else []) /\
    h_values hd (L "Location") = [location r uri] /\
    (rq_method r = L "GET" \/ rq_method r = L "HEAD" -> h_values hd (L "Content-Type") = [L "text/html; charset=utf-8"]).
Proof.
  intros Hh Hn Hb Hr. apply run_one in Hr as (next & _ & Hr). rewrite Hh in Hr. unfold Redirect in Hr. cbn [Ctx.pexec] in Hr.
  match type of Hr with context [call ORequest ?x1 ?c1] => change (call ORequest x1 c1) with
    (Norm (X:=request) r, (x1, log c1 (EvCall ORequest (Norm r)))) in Hr end. cbn iota in Hr.
  match type of Hr with context [call (OHeaderGet ?k) ?x1 ?c1] => change (call (OHeaderGet k) x1 c1) with
    (Norm (X:=gostr) [], (x1, log c1 (EvCall (OHeaderGet k) (Norm [])))) in Hr end. cbn iota in Hr.
  cbn zeta in Hr. change (negb (negb (seqb [] []))) with true in Hr. cbn [andb] in Hr.
  match type of Hr with context [pexec next (seqp (?a ++ ?b ++ [OWriteHeader n] ++ ?w) PRet) ?x1 ?c1] =>
    set (os := a ++ b) in Hr; assert (Hout : w = map OWrite (if decide (rq_method r = L "GET") then [page r uri n] else [])) end.
  { destruct (seqb _ _) eqn:E; [apply seqb_true in E; by rewrite decide_True|apply seqb_false in E; by rewrite decide_False]. }
  rewrite app_assoc in Hr. fold os in Hr. rewrite Hout in Hr.
  match type of Hr with context [pexec next _ ?x1 ?c1] =>
    destruct (exec_deliver next os n (if decide (rq_method r = L "GET") then [page r uri n] else []) PRet x1 c1)
      as (x2 & c2 & E & H1 & H2); [|done|done|done|rewrite E in Hr] end.
  { unfold os. destruct (_ || _); by repeat constructor. }
  cbn [Ctx.pexec] in Hr. destruct Hr as [-> Hr]. split; [done|]. rewrite Hr. eexists. split; [exact H1|].
  rewrite H2, Hb. split. { cbn. case_decide; simpl; [by rewrite app_nil_r|done]. }
  unfold os. destruct (seqb (rq_method r) (L "GET") || seqb (rq_method r) (L "HEAD")) eqn:Hg; cbn [app fold_left].
  - split.
    + rewrite h_values_hop. change (seqb (canon HeaderContentType) (canon (L "Location"))) with false. cbn iota.
      rewrite h_values_hop, seqb_refl. done.
    + intros _. rewrite h_values_hop. change (seqb (canon HeaderContentType) (canon (L "Content-Type"))) with true. done.
  - split; [by rewrite h_values_hop, seqb_refl|]. intros [E1|E1]; rewrite E1 in Hg; vm_compute in Hg; done.
Qed.

Lemma redirect_delivers ops r0 opts e id x r body en px c' uri n :
  engine_of re_ok ops r0 opts e ->
  ServeHTTP re_find sniff parse_form code e id x (arrive r body) = (en, px, c') -> starts (cn_log c') <> [] ->
  (forall hs, dispatched re_ok re_find e r hs -> exists h, hs = [h] /\
     (code h = MovedPermanently location page uri PRet /\ n = 301 \/ code h = Found location page uri PRet /\ n = 302)) ->
  en = EDone /\ exists hd, finish sniff (cn_rw c') = (n, hd, if decide (rq_method r = L "GET") then page r uri n else []) /\
    h_values hd (L "Location") = [location r uri] /\
    (rq_method r = L "GET" \/ rq_method r = L "HEAD" -> h_values hd (L "Content-Type") = [L "text/html; charset=utf-8"]).
Proof.
  intros He Hs Hne Hd.
  destruct (serve_ran re_ok re_find sniff parse_form code _ _ _ _ _ _ _ _ _ _ _ He Hs Hne) as (hs0 & ps & nd & Hdis & Hran).
  destruct (Hd _ Hdis) as (h & -> & Hh).
  assert (code h = Redirect location page uri n PRet /\ valid_code n = true /\ body_allowed n = true) as (Hc & Hn & Hb).
  { destruct Hh as [[? ->]|[? ->]]; done. }
  destruct (redirect_response h uri n id ps nd r body en c' Hc Hn Hb Hran) as (-> & hd & H1 & H2 & H3 & H4).
  split; [done|]. unfold finish. rewrite H1, H2. cbn iota beta.
  destruct (decide (rq_method r = L "GET")) as [Hg|Hg]; [|by exists hd].
  exists hd. split_and!; try done. specialize (H4 (or_introl Hg)).
  rewrite (bool_decide_eq_false_2 (hd !! L "Content-Type" = None)); [by rewrite andb_false_r|].
  intros E. unfold h_values in H4. change (canon (L "Content-Type")) with (L "Content-Type") in H4. by rewrite E in H4.
Qed.
End Redirect.

(** ** Attachments *)
Section Attachment.
Variable serve : request -> gostr -> gostr -> gostr -> F -> list (gostr * option gostr) * Z * list gostr.

Lemma attach_response h os f id ps nd r body en c' t k :
  code h = seqp os (ServeContent serve false f PRet) -> Forall headerly os ->
  h_get (fold_left hop os ∅) (L "Content-Type") = t ->
  ran id [h] ps nd r body en c' ->
  let '(hs, n, out) := serve r t (h_get (fold_left hop os ∅) (L "Etag")) (h_get (fold_left hop os ∅) (L "Content-Encoding")) f in
  valid_code n = true -> (forall kv, kv ∈ hs -> canon (fst kv) <> canon k) ->
  en = EDone /\ exists hd, rw_sent (cn_rw c') = Some (n, hd) /\
    rw_body (cn_rw c') = (if body_allowed n then concat out else []) /\ h_values hd k = h_values (fold_left hop os ∅) k.
Proof.
  intros Hh Hos Ht Hr. apply run_one in Hr as (next & _ & Hr). rewrite Hh in Hr.
  match type of Hr with context [pexec next (seqp os ?kk) ?x1 ?c1] =>
    destruct (exec_headers sniff parse_form next os kk Hos x1 c1) as (c2 & l & E & Hrw & Hq & _);
    rewrite E in Hr; clear E end.
  cbn [log arrive cn_rw rw_new rw_hdr rw_sent rw_body cn_req] in Hrw, Hq.
  unfold ServeContent in Hr. cbn [Ctx.pexec] in Hr.
  match type of Hr with context [call ORequest ?x1 ?c1] => change (call ORequest x1 c1) with
    (Norm (X:=request) (cn_req c1), (x1, log c1 (EvCall ORequest (Norm (cn_req c1))))) in Hr end. cbn iota in Hr.
  do 3 (match type of Hr with context [call (OHeaderGet ?k1) ?x1 ?c1] => change (call (OHeaderGet k1) x1 c1) with
    (Norm (X:=gostr) (h_get (rw_hdr (cn_rw c1)) k1), (x1, log c1 (EvCall (OHeaderGet k1) (Norm (h_get (rw_hdr (cn_rw c1)) k1))))) in Hr end; cbn iota in Hr).
  cbn [log cn_rw cn_req] in Hr. rewrite Hrw, Hq in Hr. cbn [rw_hdr] in Hr. fold HeaderContentType in Ht. rewrite Ht in Hr.
  destruct (serve r t _ _ f) as [[hs n] out] eqn:Hserve. intros Hn Hk.
  change (deliver false (hs, n, out) PRet) with (seqp (map put_header hs ++ [OWriteHeader n] ++ map OWrite out) (PRet (V:=V))) in Hr.
  assert (Hps : Forall (headerly (V:=V)) (map put_header hs)).
  { apply Forall_forall. intros o Ho. apply elem_of_list_fmap in Ho as ([k1 [v|]] & -> & _); done. }
  match type of Hr with context [pexec next _ ?x1 ?c1] =>
    destruct (exec_deliver next (map put_header hs) n out PRet x1 c1) as (x3 & c3 & E & H1 & H2); [done|done| |done|rewrite E in Hr] end.
  { cbn [log cn_rw]. by rewrite Hrw. }
  cbn [Ctx.pexec] in Hr. destruct Hr as [-> Hr]. split; [done|]. rewrite Hr. eexists. split; [exact H1|].
  rewrite H2. cbn [log cn_rw]. rewrite Hrw. cbn [rw_body rw_hdr app]. split; [done|].
  apply fold_spared; [done|]. intros o Ho. apply elem_of_list_fmap in Ho as ([k1 [v|]] & -> & Hin); exact (Hk _ Hin).
Qed.

Definition disposition (inline : bool) : gostr := if inline then L "inline" else L "attachment".
(** http.ServeContent leaves Content-Disposition alone and answers with a valid status *)
Definition decent : Prop := forall r t etag enc f, let '(hs, n, out) := serve r t etag enc f in
  valid_code n = true /\ forall kv, kv ∈ hs -> canon (fst kv) <> canon (L "Content-Disposition").

Lemma attach_delivers ops r0 opts e id x r body en px c' (download : bool) name inline f :
  decent ->
  engine_of re_ok ops r0 opts e ->
  ServeHTTP re_find sniff parse_form code e id x (arrive r body) = (en, px, c') -> starts (cn_log c') <> [] ->
  (forall hs, dispatched re_ok re_find e r hs -> exists h, hs = [h] /\
     code h = if download then Download serve (Some (name, f)) inline (fun _ => PRet) else Attachment serve name inline f PRet) ->
  en = EDone /\
    let '(_, n, out) := serve r (if download then L "application/octet-stream" else []) [] [] f in
    exists hd, finish sniff (cn_rw c') = (n, hd, if body_allowed n then concat out else []) /\
      h_values hd (L "Content-Disposition") = [contentDisposition name (disposition inline)].
Proof.
  intros Hdec He Hs Hne Hd.
  destruct (serve_ran re_ok re_find sniff parse_form code _ _ _ _ _ _ _ _ _ _ _ He Hs Hne) as (hs0 & ps & nd & Hdis & Hran).
  destruct (Hd _ Hdis) as (h & -> & Hh).
  set (t := if download then L "application/octet-stream" else []).
  assert (exists os, code h = seqp os (ServeContent serve false f PRet) /\ Forall headerly os /\
    h_get (fold_left hop os ∅) (L "Content-Type") = t /\ h_get (fold_left hop os ∅) (L "Etag") = [] /\
    h_get (fold_left hop os ∅) (L "Content-Encoding") = [] /\
    h_values (fold_left hop os ∅) (L "Content-Disposition") = [contentDisposition name (disposition inline)])
    as (os & Hc & Hos & H1 & H2 & H3 & H4).
  { unfold t. destruct download.
    2: { eexists _. split; [exact Hh|]. split; [by repeat constructor|]. unfold h_get. cbn [fold_left].
      rewrite !h_values_hop.
      change (seqb (canon HeaderContentDisposition) (canon (L "Content-Type"))) with false.
      change (seqb (canon HeaderContentDisposition) (canon (L "Etag"))) with false.
      change (seqb (canon HeaderContentDisposition) (canon (L "Content-Encoding"))) with false.
      change (seqb (canon HeaderContentDisposition) (canon (L "Content-Disposition"))) with true.
      done. }
    - eexists _. split; [exact Hh|]. split; [by repeat constructor|].
      unfold h_get. cbn [fold_left]. unfold HeaderContentDisposition.
      repeat (rewrite h_values_hop; repeat match goal with |- context [seqb (canon (L ?a)) (canon (L ?b))] =>
        let v := eval vm_compute in (seqb (canon (L a)) (canon (L b))) in
        change (seqb (canon (L a)) (canon (L b))) with v end; cbn iota). done. }
  pose proof (attach_response h os f id ps nd r body en c' t (L "Content-Disposition") Hc Hos H1 Hran) as Hres.
  rewrite H2, H3 in Hres. specialize (Hdec r t [] [] f).
  destruct (serve r t [] [] f) as [[hs n] out] eqn:Hserve. destruct Hdec as [Hn Hk].
  destruct (Hres Hn Hk) as (-> & hd & Ha & Hb & Hcd). split; [done|].
  assert (exists hd', finish sniff (cn_rw c') = (n, hd', if body_allowed n then concat out else []) /\
    h_values hd' (L "Content-Disposition") = h_values hd (L "Content-Disposition")) as (hd' & Hf & Hv).
  { unfold finish. rewrite Ha, Hb. cbn iota beta. eexists. split; [reflexivity|].
    destruct (_ && _); [|done]. unfold h_set, h_values. by rewrite lookup_insert_ne. }
  exists hd'. split; [done|]. by rewrite Hv, Hcd.
Qed.

(** a handler that answers itself if Download returns an error *)
Lemma download_reports ops r0 opts e id x r body en px c' file inline m text :
  decent -> valid_code m = true ->
  engine_of re_ok ops r0 opts e ->
  ServeHTTP re_find sniff parse_form code e id x (arrive r body) = (en, px, c') -> starts (cn_log c') <> [] ->
  (forall hs, dispatched re_ok re_find e r hs -> exists h, hs = [h] /\
     code h = Download serve file inline (fun ok => if ok then PRet else seqp [OWriteHeader m; OWrite text] PRet)) ->
  en = EDone /\
    match file with
    | None => exists hd, finish sniff (cn_rw c') = (m, hd, if body_allowed m then text else []) /\ h_values hd (L "Content-Disposition") = []
    | Some (name, f) =>
        let '(_, n, out) := serve r (L "application/octet-stream") [] [] f in
        exists hd, finish sniff (cn_rw c') = (n, hd, if body_allowed n then concat out else []) /\
          h_values hd (L "Content-Disposition") = [contentDisposition name (disposition inline)]
    end.
Proof.
  intros Hdec Hm He Hs Hne Hd. destruct file as [[name f]|].
  { exact (attach_delivers ops r0 opts e id x r body en px c' true name inline f Hdec He Hs Hne Hd). }
  destruct (serve_ran re_ok re_find sniff parse_form code _ _ _ _ _ _ _ _ _ _ _ He Hs Hne) as (hs0 & ps & nd & Hdis & Hran).
  destruct (Hd _ Hdis) as (h & -> & Hh). apply run_one in Hran as (next & _ & Hr). rewrite Hh in Hr.
  change (Download serve None inline (fun ok => if ok then PRet else seqp [OWriteHeader m; OWrite text] PRet))
    with (seqp ([] ++ [OWriteHeader m] ++ map OWrite [text]) (PRet (V:=V))) in Hr.
  match type of Hr with context [pexec next _ ?x1 ?c1] =>
    destruct (exec_deliver next [] m [text] PRet x1 c1) as (x3 & c3 & E & H1 & H2); [done|done|done|done|rewrite E in Hr] end.
  cbn [Ctx.pexec] in Hr. destruct Hr as [-> Hr]. split; [done|]. rewrite Hr.
  unfold finish. rewrite H1, H2. cbn [log arrive cn_rw rw_new rw_body rw_hdr app fold_left].
  eexists. split; [cbn [concat]; rewrite app_nil_r; reflexivity|]. destruct (_ && _); [|done]. unfold h_set, h_values. by rewrite lookup_insert_ne.
Qed.
End Attachment.
End Facts.
