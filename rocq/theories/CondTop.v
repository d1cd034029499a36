(** Requests for static files, answered with net/http's ServeContent. *)
From Verif Require Import Base GoStr Strconv Pattern Tree TreeSpec Header Router RouterSpec PathClean Ctx Util UtilSpec Content
  UtilFacts TraceSpec Engine EngineSpec ServeThms StaticReg Static StaticSpec StaticFacts StaticTop NetServe CondSpec NetServeFacts.
Local Open Scope Z_scope.

Section Top.
Context {A V F O : Type}.
Variable re_ok : gostr -> bool.
Variable re_find : gostr -> gostr -> option (list gostr).
Variable sniff : gostr -> gostr.
Variable parse_form : bool -> request -> gostr * bool -> gmap gostr (list gostr) * bool * gostr.
Variable code : handler A -> prog V.
Variable location : request -> gostr -> gostr.
Variable page : request -> gostr -> Z -> gostr.
Variable parse_time : gostr -> option Z.
Variable modtime : F -> option Z.
Variable http_date : Z -> gostr.
Variable send : request -> gostr -> gostr -> F -> gostr -> list (gostr * option gostr) * Z * list gostr.
Variable serve_file : request -> gostr -> gostr -> gostr -> gostr -> O -> list (gostr * option gostr) * Z * list gostr.
Hypothesis send_valid : forall r t enc f rg, 100 <= (send r t enc f rg).1.2 <= 999.
Hypothesis serve_file_valid : forall r t etag enc p os, 100 <= (serve_file r t etag enc p os).1.2 <= 999.
Hypothesis dates : forall s u, parse_time s = Some u -> """"%char ∉ s.

Lemma net_valid r t etag enc f : valid_code (net_serve parse_time modtime http_date send r t etag enc f).1.2 = true.
Proof.
  unfold net_serve. destruct (checkPreconditions _ _ _ _) as [| |rg|]; [done|done| |done].
  pose proof (send_valid r t enc f rg) as H. destruct (send r t enc f rg) as [[hs n] out]. by apply code_ok.
Qed.

(** The request r is for the file f of a static route with tags, whose tag is T; c'
    is the connection after it has been served. *)
Definition file_request (e : engine A) (r : request) (T : gostr) (f : F) (c' : conn V) : Prop :=
  exists ops r0 opts id x body en px v pre h o open os name mtime size base,
  engine_of re_ok ops r0 opts e /\ ServeHTTP re_find sniff parse_form code e id x (arrive r body) = (en, px, c') /\
  (forall n, ~ refused r n) /\ sole_route re_ok re_find e v r /\
  Forall literal_seg pre /\ rt_variant v = slashed (pre ++ [L "*"]) /\
  rt_handlers v = [h] /\ code h = static_handler location page (net_serve parse_time modtime http_date send) serve_file o open os /\
  (rq_method r = L "GET" \/ rq_method r = L "HEAD") /\
  file_name pre r name /\ open name = Regular mtime size base f /\ so_etag o <> 0%nat /\
  T = file_tag (so_etag o) mtime size base.

Lemma conditional_reply e r tag f c' : file_request e r tag f c' ->
  tags_or_star (h_get (rq_header r) (L "If-Match")) -> tags_or_star (h_get (rq_header r) (L "If-None-Match")) ->
  exists a hd, answers parse_time tag (modtime f) (h_get (rq_header r)) a /\
    match a with
    | Precondition => rw_sent (cn_rw c') = Some (412, hd) /\ rw_body (cn_rw c') = [] /\ h_get hd (L "Etag") = tag /\ dated http_date (modtime f) hd
    | NotModified => rw_sent (cn_rw c') = Some (304, hd) /\ rw_body (cn_rw c') = [] /\ h_get hd (L "Etag") = tag /\ no_entity hd
    | CondSpec.Content rg =>
        let '(hs, n, out) := send r [] [] f rg in
        rw_sent (cn_rw c') = Some (n, hd) /\
        (bodiless n -> rw_body (cn_rw c') = []) /\ (~ bodiless n -> rw_body (cn_rw c') = concat out) /\
        ((forall kv, kv ∈ hs -> canon kv.1 <> L "Etag") -> h_get hd (L "Etag") = tag) /\
        ((forall kv, kv ∈ hs -> canon kv.1 <> L "Last-Modified") -> dated http_date (modtime f) hd)
    end.
Proof.
  intros (ops & r0 & opts & id & x & body & en & px & v & pre & h & o & open & os & name & mtime & size & base &
    He & H & Href & Hs & Hpre & Hv & Hh & Hc & Hm & Hn & Ho & Het & Htag) Hs1 Hs2.
  destruct (tag_bytes (so_etag o) mtime size base) as [HT HTn]. change file_tag with static_tag in Htag. rewrite <- Htag in HT, HTn.
  pose proof (tag_reply_on re_ok re_find sniff parse_form code location page (net_serve parse_time modtime http_date send) serve_file
    net_valid (fun r t etag enc p os => proj2 (code_ok _) (serve_file_valid r t etag enc p os))
    _ _ _ _ _ _ _ _ _ _ _ _ _ _ _ _ _ _ _ _ _ _ He H Href Hs Hpre Hv Hh Hc Hm Hn Ho Het) as R. cbv zeta in R. rewrite <- Htag in R.
  set (h0 := announced o mtime size base) in *.
  assert (h_get h0 (L "Etag") = tag) as Ht by (rewrite Htag; by apply announced_tag).
  assert (forall k, k ∈ [L "Content-Type"; L "Content-Length"; L "Last-Modified"] -> h0 !! k = None) as H0.
  { intros k Hk. unfold h0, announced, expiring. rewrite decide_False by done.
    assert (L "Etag" <> k /\ L "Expires" <> k) as [K1 K2].
    { repeat (apply elem_of_cons in Hk as [->|Hk]; [done|]). by apply elem_of_nil in Hk. }
    rewrite lookup_insert_ne by done. destruct (so_expires o); [by rewrite lookup_singleton_ne|by rewrite lookup_empty]. }
  destruct (decide (h_get (rq_header r) (L "If-None-Match") = tag)) as [Ei|Ei].
  { destruct (net_serve _ _ _ _ r [] tag [] f) as [[hs n] out]. destruct R as [R _]. destruct (R Ei) as (R1 & R2).
    exists NotModified, h0. split; [by apply an_same|]. split_and!; [done|done|done|exact H0]. }
  destruct (conditional tag HT parse_time dates r (modtime f) Hm HTn Hs1 Hs2 Ei) as (a & Ha & Hans).
  unfold net_serve in R. set (lm := match modtime f with Some m => _ | None => _ end) in *.
  assert (h_get (put_headers lm h0) (L "Etag") = tag /\ dated http_date (modtime f) (put_headers lm h0)) as [Hlt Hld].
  { unfold lm, dated. destruct (modtime f) as [m|]; cbn [put_headers fold_left]; [|done]. split.
    - rewrite <- Ht. unfold h_get, h_values, h_set. by rewrite lookup_insert_ne.
    - intros t [= <-]. apply h_get_set. }
  assert (forall hs, put_headers (lm ++ hs) h0 = put_headers hs (put_headers lm h0)) as Happ by (intros hs; apply fold_left_app).
  destruct (checkPreconditions _ _ _ _) as [| |rg|]; [| | |done]; injection Ha as <-.
  - destruct R as [_ R]. destruct (R Ei) as (R1 & R3). exists Precondition, (put_headers lm h0). done.
  - destruct R as [_ R]. destruct (R Ei) as (R1 & R3). eexists NotModified, _. split; [done|]. split; [exact R1|]. split; [done|].
    rewrite (proj2 (seqb_false tag []) HTn). rewrite Happ. cbn [put_headers fold_left app]. split.
    + unfold h_get, h_values, h_del. rewrite !lookup_delete_ne by done. exact Hlt.
    + intros k Hk. unfold h_del.
      repeat (apply elem_of_cons in Hk as [->|Hk]; [apply lookup_delete_None; try (left; reflexivity); right; apply lookup_delete_None; try (left; reflexivity); right; apply lookup_delete_None; left; reflexivity|]).
      by apply elem_of_nil in Hk.
  - destruct (send r [] [] f rg) as [[hs n] out] eqn:Es. destruct R as [_ R]. destruct (R Ei) as (R1 & R3).
    eexists (CondSpec.Content rg), _. split; [done|]. rewrite Es. split; [exact R1|]. rewrite Happ. split_and!.
    + intros Hb. by rewrite R3, (proj2 (bodiless_ok n) Hb).
    + intros Hb. rewrite R3. destruct (body_allowed n) eqn:E; [done|]. by apply bodiless_ok in E.
    + intros Hk. rewrite put_headers_other by exact Hk. exact Hlt.
    + intros Hk m Hmt. rewrite put_headers_other by exact Hk. by apply Hld.
Qed.

Lemma star_free_tag e r tag f c' : file_request e r tag f c' -> tag <> [] /\ "*"%char ∉ tag.
Proof.
  intros (? & ? & ? & ? & ? & ? & ? & ? & ? & ? & ? & o & ? & ? & ? & mtime & size & base & H). decompose [and] H. subst tag.
  split; [apply tag_bytes|apply tag_no_star].
Qed.

(** any tag in If-Match *)
Lemma if_match_fails e r tag f c' : file_request e r tag f c' ->
  "*"%char ∉ h_get (rq_header r) (L "If-Match") -> tags_or_star (h_get (rq_header r) (L "If-None-Match")) ->
  h_get (rq_header r) (L "If-Match") <> [] -> h_get (rq_header r) (L "If-None-Match") <> tag ->
  rw_body (cn_rw c') = [] /\ exists hd, rw_sent (cn_rw c') = Some (412, hd) /\ h_get hd (L "Etag") = tag.
Proof.
  intros H Hs1 Hs2 Hm Hn. destruct (conditional_reply _ _ _ _ _ H (or_introl Hs1) Hs2) as (a & hd & Ha & R).
  assert (~ passes parse_time (modtime f) (h_get (rq_header r))) as Hp.
  { intros [Hx|[Hx _]]; [|done]. apply Hs1. rewrite Hx. by left. }
  destruct Ha; try done; (split; [apply R|]); exists hd; (split; apply R).
Qed.
(** another tag in If-None-Match *)
Lemma if_none_match_content e r tag f c' : file_request e r tag f c' ->
  "*"%char ∉ h_get (rq_header r) (L "If-None-Match") -> h_get (rq_header r) (L "If-None-Match") <> [] ->
  h_get (rq_header r) (L "If-None-Match") <> tag ->
  h_get (rq_header r) (L "If-Match") = [] -> h_get (rq_header r) (L "If-Unmodified-Since") = [] -> h_get (rq_header r) (L "Range") = [] ->
  let '(hs, n, out) := send r [] [] f [] in
  (exists hd, rw_sent (cn_rw c') = Some (n, hd)) /\ (~ bodiless n -> rw_body (cn_rw c') = concat out).
Proof.
  intros H Hs2 Hn Hne Hm Hu Hr.
  assert ("*"%char ∉ h_get (rq_header r) (L "If-Match")) as Hs1 by (rewrite Hm; apply not_elem_of_nil).
  destruct (conditional_reply _ _ _ _ _ H (or_introl Hs1) (or_introl Hs2)) as (a & hd & Ha & R). destruct Ha as [H1|H1 H2|H1 H2|H1 H2 H3 H4|rg H1 H2 H3 H4 H5 H6]; try done.
  - destruct H2. right. split; [done|]. intros (t & u & _ & Hx & _). by destruct Hx.
  - destruct Hs2. rewrite H1. by left.
  - assert (rg = []) as ->.
    { destruct (decide (h_get (rq_header r) (L "If-Range") = [])) as [E|E]; [rewrite H5; [done|by left]|].
      assert (in_range parse_time (modtime f) (h_get (rq_header r) (L "If-Range")) \/ ~ in_range parse_time (modtime f) (h_get (rq_header r) (L "If-Range")))
        as [Hx|Hx] by apply in_range_dec; [by rewrite H5|by apply H6]. }
    destruct (send r [] [] f []) as [[hs n] out]. destruct R as (R1 & _ & R2 & _ & _). split; [by exists hd|done].
Qed.
(** a tag in If-Range: the range is ignored *)
Lemma if_range_ignored e r tag f c' : file_request e r tag f c' ->
  h_get (rq_header r) (L "If-None-Match") = [] -> h_get (rq_header r) (L "If-Match") = [] ->
  h_get (rq_header r) (L "If-Unmodified-Since") = [] -> h_get (rq_header r) (L "If-Modified-Since") = [] ->
  h_get (rq_header r) (L "If-Range") <> [] -> parse_time (h_get (rq_header r) (L "If-Range")) = None ->
  let '(hs, n, out) := send r [] [] f [] in
  (exists hd, rw_sent (cn_rw c') = Some (n, hd)) /\ (~ bodiless n -> rw_body (cn_rw c') = concat out).
Proof.
  intros H Hn Hm Hu Hi Hr Hp. destruct (star_free_tag _ _ _ _ _ H) as [Ht _].
  assert ("*"%char ∉ h_get (rq_header r) (L "If-Match")) as Hs1 by (rewrite Hm; apply not_elem_of_nil).
  assert ("*"%char ∉ h_get (rq_header r) (L "If-None-Match")) as Hs2 by (rewrite Hn; apply not_elem_of_nil).
  destruct (conditional_reply _ _ _ _ _ H (or_introl Hs1) (or_introl Hs2)) as (a & hd & Ha & R). destruct Ha as [H1|H1 H2|H1 H2|H1 H2 H3 H4|rg H1 H2 H3 H4 H5 H6]; try done.
  - by rewrite Hn in H1.
  - destruct H2. right. split; [done|]. intros (t & u & _ & Hx & _). by destruct Hx.
  - by rewrite Hn in H1.
  - destruct H4 as (t & u & _ & Hx & _). by destruct Hx.
  - assert (rg = []) as ->. { apply H6. intros [Hx|(t & _ & Hx)]; congruence. }
    destruct (send r [] [] f []) as [[hs n] out]. destruct R as (R1 & _ & R2 & _ & _). split; [by exists hd|done].
Qed.
End Top.
