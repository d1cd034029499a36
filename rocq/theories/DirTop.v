(** Listings of directories in replies. *)
From Verif Require Import Base GoStr Strconv Pattern Tree TreeSpec Header Router RouterSpec PathClean Ctx Util UtilSpec Content
  UtilFacts TraceSpec Engine EngineSpec ServeThms StaticReg Static StaticSpec StaticFacts StaticTop NetServe CondSpec NetServeFacts NetFile NetRange RangeSpec NetRangeFacts
  CondTop FileSpec FileFacts ContentFacts RedirectFacts HelperSpec HelperLog RangeTop NetDir DirSpec DirFacts.
Local Open Scope Z_scope.

Lemma put_app hs hs' (h : header) : put_headers (hs ++ hs') h = put_headers hs' (put_headers hs h).
Proof. apply fold_left_app. Qed.

Section Top.
Context {A V F : Type}.
Variable re_ok : gostr -> bool.
Variable re_find : gostr -> gostr -> option (list gostr).
Variable sniff : gostr -> gostr.
Variable parse_form : bool -> request -> gostr * bool -> gmap gostr (list gostr) * bool * gostr.
Variable code : handler A -> prog V.
Variable raw_query : request -> gostr.
Variable serve : request -> gostr -> gostr -> gostr -> F -> list (gostr * option gostr) * Z * list gostr.
Hypothesis serve_valid : forall r t etag enc f, 100 <= (serve r t etag enc f).1.2 <= 999.
Variable parse_time : gostr -> option Z.
Variable http_date : Z -> gostr.
Notation listing := (net_listing parse_time http_date).

Lemma listing_valid r d : 100 <= (listing r d).1.2 <= 999.
Proof using.
  unfold net_listing. destruct (checkIfModifiedSince _ _ _ _); [..|cbn; lia]; unfold dirList; destruct (di_entries d); cbn; lia.
Qed.
Lemma listing_reply r d (h0 : header) :
  dir_reply parse_time http_date amp_apart r d (listing r d).1.2 (put_headers (listing r d).1.1 h0) (if bears_body (listing r d).1.2 then concat (listing r d).2 else []).
Proof.
  unfold net_listing.
  assert ((has_listing parse_time r d /\ checkIfModifiedSince parse_time (rq_method r) (h_get (rq_header r) (L "If-Modified-Since")) (di_time d) = CFalse) \/
    (~ has_listing parse_time r d /\ checkIfModifiedSince parse_time (rq_method r) (h_get (rq_header r) (L "If-Modified-Since")) (di_time d) <> CFalse)) as [[H E]|[H E]].
  { destruct (decide (rq_method r = L "GET" \/ rq_method r = L "HEAD")) as [Hm|Hm].
    - destruct (if_modified parse_time (rq_method r) (h_get (rq_header r) (L "If-Modified-Since")) (di_time d) Hm) as [[H1 H2]|[H1 H2]]; [left|right]; (split; [|done]).
      + by split.
      + by intros [_ ?].
    - right. split; [by intros [? _]|]. unfold checkIfModifiedSince. rewrite !(proj2 (seqb_false _ _)) by tauto. done. }
  - rewrite E. cbn [fst snd]. change (bears_body 304) with false. cbv iota. apply dr_same; [done|].
    cbn [put_headers fold_left]. rewrite values_del. canons. cbv iota. rewrite values_del. canons. done.
  - assert (forall X Y : list (gostr * option gostr) * Z * list gostr,
      match checkIfModifiedSince parse_time (rq_method r) (h_get (rq_header r) (L "If-Modified-Since")) (di_time d) with CFalse => X | _ => Y end = Y) as Em
      by (intros X Y; by destruct (checkIfModifiedSince _ _ _ _)).
    rewrite Em. clear Em E. unfold dirList. destruct (di_entries d) as [l|] eqn:El; cbn [fst snd http_Error].
    + change (bears_body 200) with true. cbv iota. apply (dr_page _ _ _ _ _ _ l (sort_entries l) _ (map anchor (sort_entries l))); [done|done|..].
      * rewrite put_app. cbn [put_headers fold_left]. rewrite values_set. canons. done.
      * intros m ->. cbn [app put_headers fold_left]. rewrite values_set. canons. cbv iota. rewrite values_set. canons. done.
      * apply dir_page.
      * apply Forall2_fmap_l, Forall_Forall2_diag, Forall_forall. intros e _. apply anchor_links.
      * apply sort_entries_perm.
      * apply sort_entries_sorted.
    + change (bears_body 500) with true. cbv iota. cbn [concat]. rewrite app_nil_r. apply dr_broken; [done|done|].
      rewrite put_app. cbn [put_headers fold_left]. rewrite values_set. canons. cbv iota. rewrite values_set. canons. done.
Qed.

Lemma shows_answer r t etag enc name os p d : opened name p -> shows os p d -> ~ dotted (rq_path r) -> ~ ends_in (rq_path r) (L "/index.html") ->
  ends_in (rq_path r) (L "/") -> file_answer raw_query serve listing r t etag enc name os (listing r d).
Proof using.
  intros Ho [[Hp [why Hx]]|[d0 [Hp Hx]]] Hd Hi Hsl.
  - by eapply fa_list.
  - by eapply fa_list_index.
Qed.
Lemma dir_served ops r0 opts (e : engine A) id x r body en px c' v h name os p d :
  engine_of re_ok ops r0 opts e -> ServeHTTP re_find sniff parse_form code e id x (arrive r body) = (en, px, c') ->
  (forall n, ~ refused r n) -> sole_route re_ok re_find e v r -> rt_handlers v = [h] ->
  code h = static_file_handler (net_ServeFile raw_query serve listing) name os ->
  opened name p -> shows os p d -> ~ dotted (rq_path r) -> ~ ends_in (rq_path r) (L "/index.html") -> ends_in (rq_path r) (L "/") ->
  en = EDone /\ exists n hd, rw_sent (cn_rw c') = Some (n, hd) /\ dir_reply parse_time http_date amp_apart r d n hd (rw_body (cn_rw c')).
Proof using serve_valid.
  intros He H Href Hs Hh Hc Ho Hp Hd Hi Hsl.
  destruct (file_served re_ok re_find sniff parse_form code raw_query serve listing _ _ _ _ _ _ _ _ _ _ _ _ _ _ _ serve_valid listing_valid He H Href Hs Hh Hc) as (-> & a & Ha & S1 & B1).
  rewrite (file_answer_unique _ _ _ _ _ _ _ _ _ _ _ Ha (shows_answer r _ _ _ name os p d Ho Hp Hd Hi Hsl)) in S1, B1.
  split; [done|]. eexists _, _. split; [exact S1|]. rewrite B1. apply listing_reply.
Qed.
Lemma dir_behind ops r0 opts (e : engine A) id x r body en px c' name os p d k i l1 l2 :
  engine_of re_ok ops r0 opts e -> ServeHTTP re_find sniff parse_form code e id x (arrive r body) = (en, px, c') -> uses_ctx code e ->
  (forall hs, dispatched re_ok re_find e r hs -> exists g, hs !! i = Some g /\ code g = ServeFile raw_query serve listing name os k) ->
  cn_log c' = l1 ++ EvStart i :: l2 -> ~ responded l1 ->
  opened name p -> shows os p d -> ~ dotted (rq_path r) -> ~ ends_in (rq_path r) (L "/index.html") -> ends_in (rq_path r) (L "/") ->
  exists n hd b m l3, l2 = m ++ l3 /\ starts m = [] /\ rw_sent (cn_rw c') = Some (n, hd) /\ dir_reply parse_time http_date amp_apart r d n hd b /\
    rw_body (cn_rw c') = if decide (n = 304) then [] else b ++ data_of l3.
Proof using serve_valid.
  intros He H Hu Hdis Hl Hr Ho Hp Hd Hi Hsl.
  destruct (serve_file_behind re_ok re_find sniff parse_form code raw_query serve listing _ _ _ _ _ _ _ _ _ _ _ name os k i l1 l2
    serve_valid listing_valid He H Hu Hdis Hl Hr) as (a & m & l3 & Ha & Hl2 & Hst & S1 & B0 & B1).
  rewrite (file_answer_unique _ _ _ _ _ _ _ _ _ _ _ Ha (shows_answer r _ _ _ name os p d Ho Hp Hd Hi Hsl)) in S1, B0, B1.
  pose proof (listing_reply r d (headers_of l1)) as R. eexists _, _, _, m, l3. split; [done|]. split; [done|]. split; [exact S1|]. split; [exact R|].
  assert ((listing r d).1.2 = 304 \/ (listing r d).1.2 = 200 \/ (listing r d).1.2 = 500) as Hn by (inversion R; tauto).
  destruct (decide ((listing r d).1.2 = 304)) as [E|E].
  - apply B0. unfold bodiless. lia.
  - rewrite B1 by (unfold bodiless; lia). destruct Hn as [Hn|[Hn|Hn]]; [done|by rewrite Hn..].
Qed.

(** a static route, asked for a folder with a final slash *)
Variable location : request -> gostr -> gostr.
Variable page : request -> gostr -> Z -> gostr.
Lemma dir_static ops r0 opts (e : engine A) id x r body en px c' v pre h o open os name p d :
  engine_of re_ok ops r0 opts e -> ServeHTTP re_find sniff parse_form code e id x (arrive r body) = (en, px, c') ->
  (forall n, ~ refused r n) -> sole_route re_ok re_find e v r ->
  Forall literal_seg pre -> rt_variant v = slashed (pre ++ [L "*"]) ->
  rt_handlers v = [h] -> code h = static_handler location page serve (net_ServeFile raw_query serve listing) o open os ->
  rq_method r = L "GET" \/ rq_method r = L "HEAD" ->
  file_name pre r name -> open name = Folder ->
  opened (filepath_Join [name; so_index o]) p -> shows os p d -> ~ dotted (rq_path r) -> ends_in (rq_path r) (L "/") ->
  en = EDone /\ exists n hd, rw_sent (cn_rw c') = Some (n, hd) /\ dir_reply parse_time http_date amp_apart r d n hd (rw_body (cn_rw c')).
Proof using serve_valid.
  intros He H Href Hs Hpre Hvar Hh Hc Hm (rest & _ & Hrest & Hname) Hf Ho Hp Hd Hsl.
  assert (forall n : Z, 100 <= n <= 999 -> proper_code n = true) as Hpc by (intros n Hn; unfold proper_code; rewrite andb_true_iff, !Z.leb_le; lia).
  destruct (static_served re_ok re_find sniff parse_form code location page serve (net_ServeFile raw_query serve listing)
    (fun r t etag enc f => Hpc _ (serve_valid r t etag enc f))
    (fun r t etag enc p os => Hpc _ (answer_valid raw_query serve listing r t etag enc p os serve_valid listing_valid))
    _ _ _ _ _ _ _ _ _ _ _ _ _ _ _ _ _ He H Href Hs Hpre Hvar Hh Hc Hm) as (name' & (rest' & _ & Hrest' & Hname') & -> & a & Ha & S1 & B1).
  assert (name' = name) as ->. { rewrite Hrest in Hrest'. apply app_inv_head in Hrest'. congruence. }
  split; [done|]. assert (~ ends_in (rq_path r) (L "/index.html")) as Hi.
  { destruct Hsl as [q Hq]. intros [q' Hq']. rewrite Hq in Hq'.
    change (L "/index.html") with (L "/index.htm" ++ L "l") in Hq'. rewrite app_assoc in Hq'. by apply app_inj_tail in Hq' as [_ ?]. }
  destruct Ha as [[E|E]|? ? ? ? E|? ? ? ? E|_ E _|_ _]; try congruence.
  - exfalso. apply ends_spec in Hsl. congruence.
  - pose proof (serve_file_answer raw_query serve listing r [] [] [] (filepath_Join [name; so_index o]) os) as Hans.
    rewrite (file_answer_unique _ _ _ _ _ _ _ _ _ _ _ Hans (shows_answer r _ _ _ _ os p d Ho Hp Hd Hi Hsl)) in S1, B1.
    pose proof (listing_reply r d (expiring o)) as R. destruct (listing r d) as [[hs n] out]. cbn [completed fst snd] in *. eexists _, _. split; [exact S1|]. rewrite B1. exact R.
Qed.
End Top.
