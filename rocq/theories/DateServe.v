(** Downloads, attachments and files of handlers, asked for with dates. *)
From Verif Require Import Base GoStr Strconv Pattern Tree TreeSpec Header Router RouterSpec PathClean Ctx Util UtilSpec Content
  UtilFacts TraceSpec Engine EngineSpec ServeThms StaticReg Static StaticSpec StaticFacts StaticTop NetServe CondSpec NetServeFacts NetFile NetRange RangeSpec NetRangeFacts
  CondTop FileSpec FileFacts ContentFacts RedirectFacts HelperSpec HelperLog RangeTop TagSpec TagFacts NetDate NetDateOld DateSpec DateOldSpec DateAnswerSpec DateFacts DateOld.
Local Open Scope Z_scope.

Lemma only_others h k s : only_condition h k s -> forall k', k' ∈ [L "If-Match"; L "If-None-Match"; L "If-Modified-Since"; L "If-Unmodified-Since"; L "If-Range"] ->
  h k' = if seqb k' k then s else [].
Proof.
  intros [Hk Ho] k' Hin. destruct (seqb k' k) eqn:E; [apply seqb_true in E as ->; done|]. apply Ho; [done|]. by apply seqb_false.
Qed.
Lemma decimal_plain n x s : decimal n x s -> """"%char ∉ s.
Proof.
  induction 1 as [|n x s c H IH Hc]; [apply not_elem_of_nil|]. rewrite not_elem_of_app. split; [done|].
  rewrite elem_of_list_singleton. intros <-. vm_compute in Hc. lia.
Qed.
Lemma month_plain m s : month_name m s -> """"%char ∉ s.
Proof.
  intros H. unfold month_name in H. repeat (apply elem_of_cons in H as [H|H]; [injection H as _ ->; by apply (bool_decide_eq_false _)|]). by apply elem_of_nil in H.
Qed.
Lemma day_plain k s : day_name k s -> """"%char ∉ s.
Proof.
  intros H. unfold day_name in H. repeat (apply elem_of_cons in H as [H|H]; [injection H as _ ->; by apply (bool_decide_eq_false _)|]). by apply elem_of_nil in H.
Qed.
Lemma long_plain k s : long_day k s -> """"%char ∉ s.
Proof.
  intros H. unfold long_day in H. repeat (apply elem_of_cons in H as [H|H]; [injection H as _ ->; by apply (bool_decide_eq_false _)|]). by apply elem_of_nil in H.
Qed.
Ltac plain := rewrite ?not_elem_of_app; repeat match goal with |- _ /\ _ => split end; try (by eapply decimal_plain); try (by eapply month_plain); try (by eapply day_plain);
  try (by eapply long_plain); try (by apply (bool_decide_eq_false _)).
Lemma time_plain n s : time_of_day n s -> """"%char ∉ s.
Proof. intros (hh & mm & ss & hs & ms & sc & _ & _ & _ & _ & H1 & H2 & H3 & ->). plain. Qed.
Lemma any_plain s t : any_date s t -> """"%char ∉ s.
Proof.
  intros [H|[H|H]].
  - destruct H as (k & y & m & d & hh & mm & ss & wd & mo & ds & ys & hs & ms & sc & _ & _ & _ & _ & _ & H1 & H2 & H3 & H4 & H5 & H6 & H7 & ->). plain.
  - destruct H as (k & n & y & m & d & wd & mo & ds & ys & tod & _ & _ & _ & H1 & H2 & H3 & H4 & H5%time_plain & ->). plain; done.
  - destruct H as (k & n & y & m & d & wd & mo & ds & ys & tod & _ & _ & H1 & H2 & H3 & H4 & H5%time_plain & ->).
    assert (""""%char ∉ ds) by (destruct H3 as [H3|(c & H3 & ->)]; plain). plain; done.
Qed.
Lemma any_no_tag s t : any_date s t -> (scanETag s).1 = [].
Proof.
  intros H. destruct (scanETag s) as [e r] eqn:E. destruct e as [|a e]; [done|]. exfalso. apply any_plain in H. apply H.
  exact (proj2 (proj2 (proj2 (scan_spec s (a :: e) r E ltac:(done))))).
Qed.

Section Dates.
Context {A V F D : Type}.
Variable zoned : gostr -> Z -> option Z.
Variable re_ok : gostr -> bool.
Variable re_find : gostr -> gostr -> option (list gostr).
Variable sniff : gostr -> gostr.
Variable parse_form : bool -> request -> gostr * bool -> gmap gostr (list gostr) * bool * gostr.
Variable code : handler A -> prog V.
Variable modtime : F -> option Z.
Variable strict : bool.
Variable content : F -> gostr.
Variable ctype : F -> gostr.
Variable bnd : gostr.
Notation parse_time := (net_parse_time (net_parse_old zoned)).
Notation send := (net_send strict content ctype bnd).
Notation serve := (net_serve parse_time modtime net_date send).

Lemma dated_check r T t a : rq_method r = L "GET" \/ rq_method r = L "HEAD" -> by_date (h_get (rq_header r)) t a ->
  as_answer (checkPreconditions parse_time r T (Some t)) = Some a.
Proof.
  intros Hm Ha.
  assert (negb (seqb (rq_method r) (L "GET")) && negb (seqb (rq_method r) (L "HEAD")) = false) as HM by (destruct Hm as [-> | ->]; reflexivity).
  assert (forall s u, any_date s u -> seqb s [] = false /\ parse_time s = Some u) as Hfix.
  { intros s u H. split; [apply seqb_false, (any_text s u H)|]. exact (any_reads zoned s u H). }
  destruct Ha as [Hu|s u Ho Hs Hc|s u Ho Hs Hc|s u Ho Hs Hc|s u Ho Hs Hc|s Ho Hs|s u Ho Hs Hc]; [by rewrite check_plain by done|..];
    pose proof (only_others _ _ _ Ho) as Hall; destruct (Hfix _ _ Hs) as [Hne Hp];
    unfold checkPreconditions, checkIfMatch, checkIfNoneMatch, checkIfUnmodifiedSince, checkIfModifiedSince, checkIfRange;
    rewrite (Hall (L "If-Match")), (Hall (L "If-None-Match")), (Hall (L "If-Modified-Since")), (Hall (L "If-Unmodified-Since")), (Hall (L "If-Range"))
      by (by apply (bool_decide_eq_true _));
    rewrite HM.
  - change (seqb (if seqb (L "If-Match") (L "If-Modified-Since") then s else []) []) with true.
    change (seqb (if seqb (L "If-None-Match") (L "If-Modified-Since") then s else []) []) with true.
    change (if seqb (L "If-Modified-Since") (L "If-Modified-Since") then s else []) with s.
    change (seqb (if seqb (L "If-Unmodified-Since") (L "If-Modified-Since") then s else []) []) with true.
    cbv iota zeta. rewrite Hne, Hp, (proj2 (Z.leb_le t u)) by lia. done.
  - change (seqb (if seqb (L "If-Match") (L "If-Modified-Since") then s else []) []) with true.
    change (seqb (if seqb (L "If-None-Match") (L "If-Modified-Since") then s else []) []) with true.
    change (if seqb (L "If-Modified-Since") (L "If-Modified-Since") then s else []) with s.
    change (seqb (if seqb (L "If-Unmodified-Since") (L "If-Modified-Since") then s else []) []) with true.
    change (seqb (if seqb (L "If-Range") (L "If-Modified-Since") then s else []) []) with true.
    cbv iota zeta. rewrite Hne, Hp, (proj2 (Z.leb_gt t u)) by lia. cbn [as_answer]. by destruct (h_get (rq_header r) (L "Range")).
  - change (seqb (if seqb (L "If-Match") (L "If-Unmodified-Since") then s else []) []) with true.
    change (seqb (if seqb (L "If-None-Match") (L "If-Unmodified-Since") then s else []) []) with true.
    change (if seqb (L "If-Unmodified-Since") (L "If-Unmodified-Since") then s else []) with s.
    cbv iota zeta. rewrite Hne, Hp, (proj2 (Z.leb_gt t u)) by lia. done.
  - change (seqb (if seqb (L "If-Match") (L "If-Unmodified-Since") then s else []) []) with true.
    change (seqb (if seqb (L "If-None-Match") (L "If-Unmodified-Since") then s else []) []) with true.
    change (if seqb (L "If-Unmodified-Since") (L "If-Unmodified-Since") then s else []) with s.
    change (seqb (if seqb (L "If-Modified-Since") (L "If-Unmodified-Since") then s else []) []) with true.
    change (seqb (if seqb (L "If-Range") (L "If-Unmodified-Since") then s else []) []) with true.
    cbv iota zeta. rewrite Hne, Hp, (proj2 (Z.leb_le t u)) by lia. cbn [as_answer]. by destruct (h_get (rq_header r) (L "Range")).
  - change (seqb (if seqb (L "If-Match") (L "If-Range") then s else []) []) with true.
    change (seqb (if seqb (L "If-None-Match") (L "If-Range") then s else []) []) with true.
    change (seqb (if seqb (L "If-Unmodified-Since") (L "If-Range") then s else []) []) with true.
    change (seqb (if seqb (L "If-Modified-Since") (L "If-Range") then s else []) []) with true.
    change (if seqb (L "If-Range") (L "If-Range") then s else []) with s.
    cbv iota zeta. pose proof (any_no_tag _ _ Hs) as Hn. destruct (scanETag s) as [e rr]. cbn [fst] in Hn. subst e.
    rewrite Hne, Hp, Z.eqb_refl. cbn [as_answer]. by destruct (h_get (rq_header r) (L "Range")).
  - change (seqb (if seqb (L "If-Match") (L "If-Range") then s else []) []) with true.
    change (seqb (if seqb (L "If-None-Match") (L "If-Range") then s else []) []) with true.
    change (seqb (if seqb (L "If-Unmodified-Since") (L "If-Range") then s else []) []) with true.
    change (seqb (if seqb (L "If-Modified-Since") (L "If-Range") then s else []) []) with true.
    change (if seqb (L "If-Range") (L "If-Range") then s else []) with s.
    cbv iota zeta. pose proof (any_no_tag _ _ Hs) as Hn. destruct (scanETag s) as [e rr]. cbn [fst] in Hn. subst e.
    rewrite Hne, Hp, (proj2 (Z.eqb_neq u t)) by lia. cbn [as_answer]. by destruct (h_get (rq_header r) (L "Range")).
Qed.

Lemma by_date_fun (hd : header) t a a' : by_date (h_get hd) t a -> by_date (h_get hd) t a' -> a = a'.
Proof using zoned.
  intros Ha Ha'. set (r := mkReq (L "GET") 1 1 [] [] hd [] false).
  pose proof (dated_check r [] t a (or_introl eq_refl) Ha) as H. pose proof (dated_check r [] t a' (or_introl eq_refl) Ha') as H'. congruence.
Qed.
Lemma dated_serve r t T f tm a (h0 : header) : modtime f = Some tm -> rq_method r = L "GET" \/ rq_method r = L "HEAD" ->
  by_date (h_get (rq_header r)) tm a -> t = [] \/ h_values h0 (L "Content-Type") = [t] ->
  exists hs n out, serve r t T [] f = (hs, n, out) /\
    (forall k, canon k ∉ [L "Content-Type"; L "Content-Range"; L "X-Content-Type-Options"; L "Accept-Ranges"; L "Content-Length"; L "Last-Modified"] ->
      h_get (put_headers hs h0) k = h_get h0 k) /\
    match a with
    | Precondition => n = 412 /\ out = [] /\ h_get (put_headers hs h0) (L "Last-Modified") = net_date tm
    | NotModified => n = 304 /\ out = []
    | CondSpec.Content rg => (n = 200 \/ n = 206 \/ n = 416) /\ h_get (put_headers hs h0) (L "Last-Modified") = net_date tm /\
        delivered (content f) (typed ctype t f) bnd (bool_decide (rq_method r = L "HEAD")) rg n (put_headers hs h0) (concat out)
    end.
Proof.
  intros Hmt Hm Ha Ht. pose proof (dated_check r T tm a Hm Ha) as Hc. rewrite <- Hmt in Hc.
  assert (forall h1 : header, h_get (h_set h1 (L "Last-Modified") (net_date tm)) (L "Last-Modified") = net_date tm) as Hlm.
  { intros h1. unfold h_get, h_values, h_set. by rewrite lookup_insert. }
  destruct (checkPreconditions parse_time r T (modtime f)) as [| |rg|] eqn:Ec; try done; injection Hc as <-.
  - unfold net_serve. rewrite Ec, Hmt. eexists _, _, _. split; [reflexivity|]. split.
    + intros k Hk. apply put_headers_other. intros kv Hkv Hx. apply Hk. rewrite <- Hx.
      apply elem_of_list_singleton in Hkv as ->. apply (bool_decide_eq_true _). vm_compute. reflexivity.
    + split; [done|]. split; [done|]. apply Hlm.
  - unfold net_serve. rewrite Ec, Hmt. eexists _, _, _. split; [reflexivity|]. split; [|done].
    intros k Hk. apply put_headers_other. intros kv Hkv Hx. apply Hk. rewrite <- Hx.
    destruct (seqb T []); cbn [app] in Hkv; rewrite !elem_of_cons, elem_of_nil in Hkv;
      repeat destruct Hkv as [->|Hkv]; try done; apply (bool_decide_eq_true _); vm_compute; reflexivity.
  - destruct (net_file_go re_ok re_find sniff parse_form parse_time modtime net_date strict content ctype bnd r t T f h0 rg Ec Ht) as (hs & n & out & E & Hn & D1 & D2 & D3).
    exists hs, n, out. split; [done|]. split; [done|]. split; [done|]. split; [|done].
    unfold net_serve in E. rewrite Ec, Hmt in E. destruct (send r t [] f rg) as [[hs' n'] out'] eqn:Es. injection E as <- <- <-.
    destruct (send_keys _ _ _ _ _ _ _ _ _ _ _ _ Es) as [_ Hk].
    assert (put_headers ((L "Last-Modified", Some (net_date tm)) :: hs') h0 = put_headers hs' (put_headers [(L "Last-Modified", Some (net_date tm))] h0)) as Happ by reflexivity.
    rewrite Happ, put_headers_other; [apply Hlm|]. intros kv Hin HL. specialize (Hk kv Hin). rewrite HL in Hk. revert Hk. apply (bool_decide_eq_false _). by vm_compute.
Qed.

Lemma dated_attachment ops r0 opts (e : engine A) id x r body en px c' (download : bool) name inline f tm k i l1 l2 a :
  engine_of re_ok ops r0 opts e ->
  ServeHTTP re_find sniff parse_form code e id x (arrive r body) = (en, px, c') -> uses_ctx code e ->
  (forall hs, dispatched re_ok re_find e r hs -> exists g, hs !! i = Some g /\
     code g = if download then Download serve (Some (name, f)) inline (fun _ => k) else Attachment serve name inline f k) ->
  cn_log c' = l1 ++ EvStart i :: l2 -> ~ responded l1 ->
  modtime f = Some tm -> rq_method r = L "GET" \/ rq_method r = L "HEAD" -> by_date (h_get (rq_header r)) tm a ->
  h_get (headers_of l1) (L "Content-Encoding") = [] -> h_values (headers_of l1) (L "Content-Type") = [] ->
  let t := if download then L "application/octet-stream" else ctype f in
  exists n hd m l3, l2 = m ++ l3 /\ starts m = [] /\ rw_sent (cn_rw c') = Some (n, hd) /\
    h_get hd (L "Content-Disposition") = contentDisposition name (disposition inline) /\
    match a with
    | Precondition => n = 412 /\ rw_body (cn_rw c') = data_of l3 /\ (four_digits tm -> fixdate (h_get hd (L "Last-Modified")) tm)
    | NotModified => n = 304 /\ rw_body (cn_rw c') = []
    | CondSpec.Content rg => exists out, rw_body (cn_rw c') = out ++ data_of l3 /\ (four_digits tm -> fixdate (h_get hd (L "Last-Modified")) tm) /\
        delivered (content f) t bnd (bool_decide (rq_method r = L "HEAD")) rg n hd out
    end.
Proof.
  intros He H Hx Hd Hl Hr Hmt Hm Ha Henc Hct t.
  destruct (attach_behind re_ok re_find sniff parse_form code serve _ _ _ _ _ _ _ _ _ _ _ download name inline f k i l1 l2
    (net_valid parse_time modtime net_date strict content ctype bnd) He H Hx Hd Hl Hr) as (h1 & Hh & R).
  assert (h_get h1 (L "Content-Encoding") = h_get (headers_of l1) (L "Content-Encoding")) as Hsame.
  { unfold h_get. destruct download; [destruct Hh as (_ & _ & _ & _ & _ & _ & _ & Hh)|destruct Hh as (_ & Hh)];
      (rewrite (Hh (L "Content-Encoding")); [done|]); apply (bool_decide_eq_false _); vm_compute; reflexivity. }
  assert (exists u, h_get h1 (L "Content-Type") = u /\ (u = [] \/ h_values h1 (L "Content-Type") = [u]) /\ typed ctype u f = t) as (u & Hu1 & Hu2 & Hu3).
  { unfold h_get, t. destruct download.
    - destruct Hh as (_ & _ & Hh & _). rewrite Hh. eexists. split; [reflexivity|]. split; [by right|done].
    - destruct Hh as (_ & Hh). rewrite (Hh (L "Content-Type")) by (apply (bool_decide_eq_false _); vm_compute; reflexivity). rewrite Hct. exists []. split_and!; [done|by left|done]. }
  assert (h_get h1 (L "Content-Disposition") = contentDisposition name (disposition inline)) as Hdis.
  { unfold h_get. destruct download; destruct Hh as (Hh & _); by rewrite Hh. }
  rewrite Hsame, Henc, Hu1 in R.
  destruct (dated_serve r u (h_get h1 (L "Etag")) f tm a h1 Hmt Hm Ha Hu2) as (hs & n & out & E & Hk & Hans). rewrite E in R.
  destruct R as (m & l3 & Hl2 & Hst & Hs & Hb0 & Hb). exists n, (put_headers hs h1), m, l3.
  split; [done|]. split; [done|]. split; [done|].
  split. { rewrite Hk; [done|]. apply (bool_decide_eq_false _). vm_compute. reflexivity. }
  destruct a as [| |rg].
  - destruct Hans as (-> & -> & HL). split; [done|]. split; [apply Hb; intros [?|[?|?]]; lia|]. rewrite HL. apply net_date_fixdate.
  - destruct Hans as (-> & ->). split; [done|]. apply Hb0. unfold bodiless. lia.
  - destruct Hans as (Hn & HL & D1). rewrite Hu3 in D1. exists (concat out). split; [apply Hb; intros [?|[?|?]]; lia|]. split; [|done].
    rewrite HL. apply net_date_fixdate.
Qed.

Variable raw_query : request -> gostr.
Variable listing : request -> D -> list (gostr * option gostr) * Z * list gostr.
Hypothesis listing_valid : forall r d, 100 <= (listing r d).1.2 <= 999.
Lemma dated_file ops r0 opts (e : engine A) id x r body en px c' name os p f tm k i l1 l2 a :
  engine_of re_ok ops r0 opts e -> ServeHTTP re_find sniff parse_form code e id x (arrive r body) = (en, px, c') -> uses_ctx code e ->
  (forall hs, dispatched re_ok re_find e r hs -> exists g, hs !! i = Some g /\ code g = ServeFile raw_query serve listing name os k) ->
  cn_log c' = l1 ++ EvStart i :: l2 -> ~ responded l1 ->
  opened name p -> os p = Plain f -> ~ dotted (rq_path r) -> ~ ends_in (rq_path r) (L "/index.html") ->
  modtime f = Some tm -> rq_method r = L "GET" \/ rq_method r = L "HEAD" -> by_date (h_get (rq_header r)) tm a ->
  h_get (headers_of l1) (L "Content-Encoding") = [] -> h_values (headers_of l1) (L "Content-Type") = [] ->
  exists n hd m l3, l2 = m ++ l3 /\ starts m = [] /\ rw_sent (cn_rw c') = Some (n, hd) /\
    match a with
    | Precondition => n = 412 /\ rw_body (cn_rw c') = data_of l3 /\ (four_digits tm -> fixdate (h_get hd (L "Last-Modified")) tm)
    | NotModified => n = 304 /\ rw_body (cn_rw c') = []
    | CondSpec.Content rg => exists out, rw_body (cn_rw c') = out ++ data_of l3 /\ (four_digits tm -> fixdate (h_get hd (L "Last-Modified")) tm) /\
        delivered (content f) (ctype f) bnd (bool_decide (rq_method r = L "HEAD")) rg n hd out
    end.
Proof.
  intros He H Hx Hdis Hl Hr Ho Hp Hd Hi Hmt Hm Ha Henc Hct.
  destruct (serve_file_behind re_ok re_find sniff parse_form code raw_query serve listing _ _ _ _ _ _ _ _ _ _ _ name os k i l1 l2
    (net_valid parse_time modtime net_date strict content ctype bnd) listing_valid He H Hx Hdis Hl Hr)
    as (b & m & l3 & Hb & Hl2 & Hst & S1 & Hb0 & B1).
  rewrite (file_answer_unique _ _ _ _ _ _ _ _ _ _ _ Hb (fa_file _ _ _ _ _ _ _ _ _ p f (conj Hd Hi) Ho Hp)) in S1, B1, Hb0.
  assert (h_get (headers_of l1) (L "Content-Type") = []) as Hct' by (unfold h_get; by rewrite Hct). rewrite Henc, Hct' in S1, B1, Hb0.
  destruct (dated_serve r [] (h_get (headers_of l1) (L "Etag")) f tm a (headers_of l1) Hmt Hm Ha (or_introl eq_refl)) as (hs & n & out & E & Hk & Hcase).
  rewrite E in S1, B1, Hb0. cbn [fst snd] in S1, B1, Hb0. exists n, (put_headers hs (headers_of l1)), m, l3.
  split; [done|]. split; [done|]. split; [done|].
  destruct a as [| |rg].
  - destruct Hcase as (-> & -> & HL). split; [done|]. split; [apply B1; intros [?|[?|?]]; lia|]. rewrite HL. apply net_date_fixdate.
  - destruct Hcase as (-> & ->). split; [done|]. apply Hb0. unfold bodiless. lia.
  - destruct Hcase as (Hn & HL & D1). exists (concat out). split; [apply B1; intros [?|[?|?]]; lia|]. split; [|done].
    rewrite HL. apply net_date_fixdate.
Qed.
Lemma dated_static_file ops r0 opts (e : engine A) id x r body en px c' v h name os p f tm a :
  engine_of re_ok ops r0 opts e -> ServeHTTP re_find sniff parse_form code e id x (arrive r body) = (en, px, c') ->
  (forall n, ~ refused r n) -> sole_route re_ok re_find e v r -> rt_handlers v = [h] ->
  code h = static_file_handler (net_ServeFile raw_query serve listing) name os ->
  opened name p -> os p = Plain f -> ~ dotted (rq_path r) -> ~ ends_in (rq_path r) (L "/index.html") ->
  modtime f = Some tm -> rq_method r = L "GET" \/ rq_method r = L "HEAD" -> by_date (h_get (rq_header r)) tm a ->
  exists n hd, rw_sent (cn_rw c') = Some (n, hd) /\
    match a with
    | Precondition => n = 412 /\ rw_body (cn_rw c') = [] /\ (four_digits tm -> fixdate (h_get hd (L "Last-Modified")) tm)
    | NotModified => n = 304 /\ rw_body (cn_rw c') = []
    | CondSpec.Content rg => (four_digits tm -> fixdate (h_get hd (L "Last-Modified")) tm) /\
        delivered (content f) (ctype f) bnd (bool_decide (rq_method r = L "HEAD")) rg n hd (rw_body (cn_rw c'))
    end.
Proof.
  intros He H Href Hs Hh Hc Ho Hp Hd Hi Hmt Hm Ha.
  destruct (file_served re_ok re_find sniff parse_form code raw_query serve listing _ _ _ _ _ _ _ _ _ _ _ _ _ _ _
    (net_valid parse_time modtime net_date strict content ctype bnd) listing_valid He H Href Hs Hh Hc) as (-> & b & Hb & S1 & B1).
  rewrite (file_answer_unique _ _ _ _ _ _ _ _ _ _ _ Hb (fa_file _ _ _ _ _ _ _ _ _ p f (conj Hd Hi) Ho Hp)) in S1, B1.
  destruct (dated_serve r [] [] f tm a ∅ Hmt Hm Ha (or_introl eq_refl)) as (hs & n & out & E & Hk & Hcase). rewrite E in S1, B1. cbn [fst snd] in S1, B1.
  exists n, (put_headers hs ∅). split; [done|]. destruct a as [| |rg].
  - destruct Hcase as (-> & -> & HL). split; [done|]. split; [exact B1|]. rewrite HL. apply net_date_fixdate.
  - destruct Hcase as (-> & ->). split; [done|]. exact B1.
  - destruct Hcase as (Hn & HL & D1). split; [rewrite HL; apply net_date_fixdate|].
    assert (bears_body n = true) as Hbb by (by destruct Hn as [->|[->| ->]]). rewrite Hbb in B1. by rewrite B1.
Qed.

Lemma by_date_none h t a : by_date h t a -> h (L "If-None-Match") = [].
Proof.
  intros Ha. destruct Ha as [Hu|s u Ho Hs Hc|s u Ho Hs Hc|s u Ho Hs Hc|s u Ho Hs Hc|s Ho Hs|s u Ho Hs Hc]; [by destruct Hu as (_ & Hx & _)|..];
    rewrite (only_others _ _ _ Ho (L "If-None-Match")) by (by apply (bool_decide_eq_true _)); reflexivity.
Qed.
Context {O : Type}.
Variable location : request -> gostr -> gostr.
Variable page : request -> gostr -> Z -> gostr.
Variable serve_file : request -> gostr -> gostr -> gostr -> gostr -> O -> list (gostr * option gostr) * Z * list gostr.
Hypothesis serve_file_valid : forall r t etag enc p os, 100 <= (serve_file r t etag enc p os).1.2 <= 999.
Lemma dated_static ops r0 opts (e : engine A) id x r body en px c' v pre h o open os name mtime size base f tm a :
  engine_of re_ok ops r0 opts e -> ServeHTTP re_find sniff parse_form code e id x (arrive r body) = (en, px, c') ->
  (forall n, ~ refused r n) -> sole_route re_ok re_find e v r ->
  Forall literal_seg pre -> rt_variant v = slashed (pre ++ [L "*"]) ->
  rt_handlers v = [h] -> code h = static_handler location page serve serve_file o open os ->
  rq_method r = L "GET" \/ rq_method r = L "HEAD" ->
  file_name pre r name -> open name = Regular mtime size base f ->
  modtime f = Some tm -> by_date (h_get (rq_header r)) tm a ->
  exists n hd, rw_sent (cn_rw c') = Some (n, hd) /\
    (so_etag o <> 0%nat -> h_get hd (L "Etag") = file_tag (so_etag o) mtime size base) /\
    match a with
    | Precondition => n = 412 /\ rw_body (cn_rw c') = [] /\ (four_digits tm -> fixdate (h_get hd (L "Last-Modified")) tm)
    | NotModified => n = 304 /\ rw_body (cn_rw c') = []
    | CondSpec.Content rg => (four_digits tm -> fixdate (h_get hd (L "Last-Modified")) tm) /\
        delivered (content f) (ctype f) bnd (bool_decide (rq_method r = L "HEAD")) rg n hd (rw_body (cn_rw c'))
    end.
Proof.
  intros He H Href Hs Hpre Hv Hh Hc Hm Hn Ho Hmt Ha.
  pose proof (net_valid parse_time modtime net_date strict content ctype bnd) as Hnv.
  destruct (static_served re_ok re_find sniff parse_form code location page serve serve_file
    (fun r t etag enc f => proj2 (code_ok _) (Hnv r t etag enc f)) (fun r t etag enc p os => proj2 (code_ok _) (serve_file_valid r t etag enc p os))
    _ _ _ _ _ _ _ _ _ _ _ _ _ _ _ _ _ He H Href Hs Hpre Hv Hh Hc Hm) as (n1 & N1 & _ & a1 & R1 & S1 & B1).
  rewrite (file_name_fun _ _ _ _ N1 Hn), Ho in R1. clear N1 n1.
  inversion R1 as [[H1|H1]|? ? ? ? H1 H2 H3|? ? ? ? H1 H2|H1 H2 H3 loc|H1 H2]; try discriminate H1; injection H1 as <- <- <- <-; subst a1; cbn [fst snd] in S1, B1.
  - rewrite (by_date_none _ _ _ Ha) in H3. by destruct (proj2 (tag_bytes (so_etag o) mtime size base)).
  - set (h0 := announced o mtime size base) in *.
    destruct (dated_serve r [] (h_get h0 (L "Etag")) f tm a h0 Hmt Hm Ha (or_introl eq_refl)) as (hs & n & out & E & Hk & Hcase).
    rewrite E in S1, B1. cbn [completed fst snd] in S1, B1. exists n, (put_headers hs h0). split; [done|].
    split. { intros Het. rewrite Hk; [by apply announced_tag|]. apply (bool_decide_eq_false _). vm_compute. reflexivity. }
    destruct a as [| |rg].
    + destruct Hcase as (-> & -> & HL). split; [done|]. split; [exact B1|]. rewrite HL. apply net_date_fixdate.
    + destruct Hcase as (-> & ->). split; [done|]. exact B1.
    + destruct Hcase as (Hn' & HL & D1). split; [rewrite HL; apply net_date_fixdate|].
      assert (bears_body n = true) as Hbb by (by destruct Hn' as [->|[->| ->]]). rewrite Hbb in B1. by rewrite B1.
Qed.
End Dates.
