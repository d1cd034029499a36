(** Files with a tag that a handler has set: what conditional requests get. *)
From Verif Require Import Base GoStr Strconv Pattern Tree TreeSpec Header Router RouterSpec PathClean Ctx Util UtilSpec Content
  UtilFacts TraceSpec Engine EngineSpec ServeThms StaticReg Static StaticSpec StaticFacts StaticTop NetServe CondSpec NetServeFacts NetFile NetRange RangeSpec NetRangeFacts
  CondTop FileSpec FileFacts ContentFacts RedirectFacts HelperSpec HelperLog RangeTop TagSpec TagFacts.
From Verif Require TagAnySpec TagAny.
Local Open Scope Z_scope.

Section Tags.
Context {A V F D : Type}.
Variable re_ok : gostr -> bool.
Variable re_find : gostr -> gostr -> option (list gostr).
Variable sniff : gostr -> gostr.
Variable parse_form : bool -> request -> gostr * bool -> gmap gostr (list gostr) * bool * gostr.
Variable code : handler A -> prog V.
Variable parse_time : gostr -> option Z.
Variable modtime : F -> option Z.
Variable http_date : Z -> gostr.
Variable strict : bool.
Variable content : F -> gostr.
Variable ctype : F -> gostr.
Variable bnd : gostr.
Notation send := (net_send strict content ctype bnd).
Notation serve := (net_serve parse_time modtime http_date send).

(** [fit]: the headers of requests that are considered; [says]: what is asked for *)
Variable fit : (gostr -> gostr) -> Prop.
Variable says : gostr -> option Z -> (gostr -> gostr) -> CondSpec.answer -> Prop.
Hypothesis conditional : forall T r m, entity_tag T -> rq_method r = L "GET" \/ rq_method r = L "HEAD" -> fit (h_get (rq_header r)) ->
  exists a, as_answer (checkPreconditions parse_time r T m) = Some a /\ says T m (h_get (rq_header r)) a.

Lemma tagged_serve r t T f (h0 : header) : entity_tag T -> rq_method r = L "GET" \/ rq_method r = L "HEAD" ->
  fit (h_get (rq_header r)) -> t = [] \/ h_values h0 (L "Content-Type") = [t] ->
  exists a hs n out, serve r t T [] f = (hs, n, out) /\ says T (modtime f) (h_get (rq_header r)) a /\
    (forall k, canon k ∉ [L "Content-Type"; L "Content-Range"; L "X-Content-Type-Options"; L "Accept-Ranges"; L "Content-Length"; L "Last-Modified"] ->
      h_get (put_headers hs h0) k = h_get h0 k) /\
    match a with
    | Precondition => n = 412 /\ out = []
    | NotModified => n = 304 /\ out = [] /\ no_entity (put_headers hs h0)
    | CondSpec.Content rg => (n = 200 \/ n = 206 \/ n = 416) /\
        delivered (content f) (typed ctype t f) bnd (bool_decide (rq_method r = L "HEAD")) rg n (put_headers hs h0) (concat out) /\
        (strict = true -> content f <> [] -> contained (content f) (typed ctype t f) bnd (bool_decide (rq_method r = L "HEAD")) n (put_headers hs h0) (concat out))
    end.
Proof.
  intros HT Hm Hfit Ht.
  destruct (conditional T r (modtime f) HT Hm Hfit) as (a & Ha & Hans).
  exists a. destruct (checkPreconditions parse_time r T (modtime f)) as [| |rg|] eqn:Ec; try done; injection Ha as <-.
  - unfold net_serve. rewrite Ec. eexists _, _, _. split; [reflexivity|]. split; [done|]. split; [|done].
    intros k Hk. apply put_headers_other. intros kv Hkv Hx. apply Hk. rewrite <- Hx. destruct (modtime f); [|by apply elem_of_nil in Hkv].
    apply elem_of_list_singleton in Hkv as ->. apply (bool_decide_eq_true _). vm_compute. reflexivity.
  - unfold net_serve. rewrite Ec. eexists _, _, _. split; [reflexivity|]. split; [done|].
    assert (seqb T [] = false) as ->. { destruct HT as (w & o & -> & _). by destruct w. }
    split.
    + intros k Hk. apply put_headers_other. intros kv Hkv Hx. apply Hk. rewrite <- Hx. apply elem_of_app in Hkv as [Hkv|Hkv].
      * destruct (modtime f); [|by apply elem_of_nil in Hkv]. apply elem_of_list_singleton in Hkv as ->. apply (bool_decide_eq_true _). vm_compute. reflexivity.
      * cbn [app] in Hkv. rewrite !elem_of_cons, elem_of_nil in Hkv. destruct Hkv as [->|[->|[->|[]]]]; apply (bool_decide_eq_true _); vm_compute; reflexivity.
    + split; [done|]. split; [done|]. intros k Hk.
      unfold put_headers. rewrite fold_left_app. set (h1 := fold_left _ _ h0). cbn [fold_left app]. unfold h_del. canons.
      rewrite !elem_of_cons, elem_of_nil in Hk. destruct Hk as [->|[->|[->|[]]]];
        rewrite ?lookup_delete_None; tauto.
  - destruct (net_file_go re_ok re_find sniff parse_form parse_time modtime http_date strict content ctype bnd r t T f h0 rg Ec Ht) as (hs & n & out & E & Hn & D1 & D2 & D3).
    exists hs, n, out. by split_and!.
Qed.

Lemma attachment_by ops r0 opts (e : engine A) id x r body en px c' (download : bool) name inline f k i l1 l2 T :
  engine_of re_ok ops r0 opts e ->
  ServeHTTP re_find sniff parse_form code e id x (arrive r body) = (en, px, c') -> uses_ctx code e ->
  (forall hs, dispatched re_ok re_find e r hs -> exists g, hs !! i = Some g /\
     code g = if download then Download serve (Some (name, f)) inline (fun _ => k) else Attachment serve name inline f k) ->
  cn_log c' = l1 ++ EvStart i :: l2 -> ~ responded l1 ->
  h_get (headers_of l1) (L "ETag") = T -> entity_tag T ->
  rq_method r = L "GET" \/ rq_method r = L "HEAD" -> fit (h_get (rq_header r)) ->
  h_get (headers_of l1) (L "Content-Encoding") = [] -> h_values (headers_of l1) (L "Content-Type") = [] ->
  let t := if download then L "application/octet-stream" else ctype f in
  exists a n hd m l3, says T (modtime f) (h_get (rq_header r)) a /\
    l2 = m ++ l3 /\ starts m = [] /\ rw_sent (cn_rw c') = Some (n, hd) /\
    h_get hd (L "ETag") = T /\ h_get hd (L "Content-Disposition") = contentDisposition name (disposition inline) /\
    match a with
    | Precondition => n = 412 /\ rw_body (cn_rw c') = data_of l3
    | NotModified => n = 304 /\ rw_body (cn_rw c') = [] /\ no_entity hd
    | CondSpec.Content rg => exists out, rw_body (cn_rw c') = out ++ data_of l3 /\
        delivered (content f) t bnd (bool_decide (rq_method r = L "HEAD")) rg n hd out /\
        (strict = true -> content f <> [] -> contained (content f) t bnd (bool_decide (rq_method r = L "HEAD")) n hd out)
    end.
Proof.
  intros He H Hx Hd Hl Hr HT0 HT Hm Hc Henc Hct t. change (h_get (headers_of l1) (L "ETag")) with (h_get (headers_of l1) (L "Etag")) in HT0.
  destruct (attach_behind re_ok re_find sniff parse_form code serve _ _ _ _ _ _ _ _ _ _ _ download name inline f k i l1 l2
    (net_valid parse_time modtime http_date strict content ctype bnd) He H Hx Hd Hl Hr) as (h1 & Hh & R).
  assert (forall q, q = L "Content-Encoding" \/ q = L "Etag" -> h_get h1 q = h_get (headers_of l1) q) as Hsame.
  { intros q Hq. unfold h_get. destruct download; [destruct Hh as (_ & _ & _ & _ & _ & _ & _ & Hh)|destruct Hh as (_ & Hh)];
      (rewrite (Hh q); [done|]); destruct Hq as [->| ->]; apply (bool_decide_eq_false _); vm_compute; reflexivity. }
  assert (exists u, h_get h1 (L "Content-Type") = u /\ (u = [] \/ h_values h1 (L "Content-Type") = [u]) /\ typed ctype u f = t) as (u & Hu1 & Hu2 & Hu3).
  { unfold h_get, t. destruct download.
    - destruct Hh as (_ & _ & Hh & _). rewrite Hh. eexists. split; [reflexivity|]. split; [by right|done].
    - destruct Hh as (_ & Hh). rewrite (Hh (L "Content-Type")) by (apply (bool_decide_eq_false _); vm_compute; reflexivity). rewrite Hct. exists []. split_and!; [done|by left|done]. }
  assert (h_get h1 (L "Content-Disposition") = contentDisposition name (disposition inline)) as Hdis.
  { unfold h_get. destruct download; destruct Hh as (Hh & _); by rewrite Hh. }
  assert (h_get h1 (L "Etag") = T) as HT1 by (by rewrite Hsame; [|by right]).
  rewrite HT1, (Hsame (L "Content-Encoding")), Henc, Hu1 in R by (by left).
  destruct (tagged_serve r u T f h1 HT Hm Hc Hu2) as (a & hs & n & out & E & Ha & Hk & Hans). rewrite E in R.
  destruct R as (m & l3 & Hl2 & Hst & Hs & Hb0 & Hb). exists a, n, (put_headers hs h1), m, l3.
  split; [done|]. split; [done|]. split; [done|]. split; [done|].
  split. { change (h_get (put_headers hs h1) (L "Etag") = T). rewrite Hk; [done|]. apply (bool_decide_eq_false _). vm_compute. reflexivity. }
  split. { rewrite Hk; [done|]. apply (bool_decide_eq_false _). vm_compute. reflexivity. }
  destruct a as [| |rg].
  - destruct Hans as [-> ->]. split; [done|]. apply Hb. intros [?|[?|?]]; lia.
  - destruct Hans as (-> & -> & Hne). split; [done|]. split; [|done]. apply Hb0. unfold bodiless. lia.
  - destruct Hans as (Hn & D1 & D2). rewrite Hu3 in D1, D2. exists (concat out). split; [|done]. apply Hb. intros [?|[?|?]]; lia.
Qed.

Variable raw_query : request -> gostr.
Variable listing : request -> D -> list (gostr * option gostr) * Z * list gostr.
Hypothesis listing_valid : forall r d, 100 <= (listing r d).1.2 <= 999.
Lemma serve_file_by ops r0 opts (e : engine A) id x r body en px c' name os p f k i l1 l2 T :
  engine_of re_ok ops r0 opts e -> ServeHTTP re_find sniff parse_form code e id x (arrive r body) = (en, px, c') -> uses_ctx code e ->
  (forall hs, dispatched re_ok re_find e r hs -> exists g, hs !! i = Some g /\ code g = ServeFile raw_query serve listing name os k) ->
  cn_log c' = l1 ++ EvStart i :: l2 -> ~ responded l1 ->
  opened name p -> os p = Plain f -> ~ dotted (rq_path r) -> ~ ends_in (rq_path r) (L "/index.html") ->
  h_get (headers_of l1) (L "ETag") = T -> entity_tag T ->
  rq_method r = L "GET" \/ rq_method r = L "HEAD" -> fit (h_get (rq_header r)) ->
  h_get (headers_of l1) (L "Content-Encoding") = [] -> h_values (headers_of l1) (L "Content-Type") = [] ->
  exists a n hd m l3, says T (modtime f) (h_get (rq_header r)) a /\
    l2 = m ++ l3 /\ starts m = [] /\ rw_sent (cn_rw c') = Some (n, hd) /\ h_get hd (L "ETag") = T /\
    match a with
    | Precondition => n = 412 /\ rw_body (cn_rw c') = data_of l3
    | NotModified => n = 304 /\ rw_body (cn_rw c') = [] /\ no_entity hd
    | CondSpec.Content rg => exists out, rw_body (cn_rw c') = out ++ data_of l3 /\
        delivered (content f) (ctype f) bnd (bool_decide (rq_method r = L "HEAD")) rg n hd out /\
        (strict = true -> content f <> [] -> contained (content f) (ctype f) bnd (bool_decide (rq_method r = L "HEAD")) n hd out)
    end.
Proof.
  intros He H Hx Hdis Hl Hr Ho Hp Hd Hi HT0 HT Hm Hc Henc Hct. change (h_get (headers_of l1) (L "ETag")) with (h_get (headers_of l1) (L "Etag")) in HT0.
  destruct (serve_file_behind re_ok re_find sniff parse_form code raw_query serve listing _ _ _ _ _ _ _ _ _ _ _ name os k i l1 l2
    (net_valid parse_time modtime http_date strict content ctype bnd) listing_valid He H Hx Hdis Hl Hr)
    as (b & m & l3 & Ha & Hl2 & Hst & S1 & Hb0 & B1).
  rewrite (file_answer_unique _ _ _ _ _ _ _ _ _ _ _ Ha (fa_file _ _ _ _ _ _ _ _ _ p f (conj Hd Hi) Ho Hp)) in S1, B1, Hb0.
  assert (h_get (headers_of l1) (L "Content-Type") = []) as Hct' by (unfold h_get; by rewrite Hct). rewrite Henc, Hct', HT0 in S1, B1, Hb0.
  destruct (tagged_serve r [] T f (headers_of l1) HT Hm Hc (or_introl eq_refl)) as (a & hs & n & out & E & Hans & Hk & Hcase).
  rewrite E in S1, B1, Hb0. cbn [fst snd] in S1, B1, Hb0. exists a, n, (put_headers hs (headers_of l1)), m, l3.
  split; [done|]. split; [done|]. split; [done|]. split; [done|].
  split. { change (h_get (put_headers hs (headers_of l1)) (L "Etag") = T). rewrite Hk; [done|]. apply (bool_decide_eq_false _). vm_compute. reflexivity. }
  destruct a as [| |rg].
  - destruct Hcase as [-> ->]. split; [done|]. apply B1. intros [?|[?|?]]; lia.
  - destruct Hcase as (-> & -> & Hne). split; [done|]. split; [|done]. apply Hb0. unfold bodiless. lia.
  - destruct Hcase as (Hn & D1 & D2). exists (concat out). split; [|done]. apply B1. intros [?|[?|?]]; lia.
Qed.
End Tags.

(** headers of the proper form *)
Lemma conditional_proper parse_time : (forall s u, parse_time s = Some u -> """"%char ∉ s) ->
  forall T r m, entity_tag T -> rq_method r = L "GET" \/ rq_method r = L "HEAD" -> proper_conditions (h_get (rq_header r)) ->
  exists a, as_answer (checkPreconditions parse_time r T m) = Some a /\ tag_answers parse_time T m (h_get (rq_header r)) a.
Proof. intros Hd T r m HT Hm (P1 & P2 & P3). exact (tag_conditional T HT parse_time Hd r m Hm P1 P2 P3). Qed.
(** any headers *)
Lemma conditional_any parse_time T r m : entity_tag T -> rq_method r = L "GET" \/ rq_method r = L "HEAD" -> True ->
  exists a, as_answer (checkPreconditions parse_time r T m) = Some a /\ TagAnySpec.any_answers parse_time T m (h_get (rq_header r)) a.
Proof. intros HT Hm _. exact (TagAny.any_conditional T HT parse_time r m Hm). Qed.
