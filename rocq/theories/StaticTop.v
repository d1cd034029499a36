(** Static file routes of an engine. *)
From Verif Require Import Base GoStr GoStrFacts Strconv Pattern PatternSpec PatternFacts Tree TreeSpec LastingSpec Header Router
  PathClean Ctx CtxFacts Util UtilSpec UtilFacts Getters Content TraceSpec Engine EngineSpec ServeFacts ServeProps ServeTop
  ServeDispatch ContentFacts ParamSpec ServeParams StaticReg Static StaticSpec StaticFacts.
Local Open Scope Z_scope.

(** ** The route and its parameter *)
Lemma literal_no_star s : literal_seg s -> ~ starts_with "*" s.
Proof. intros (_ & _ & _ & H & _) (r & Hr). by apply (H r). Qed.
Lemma skip_empty_id l : Forall (fun x : gostr => x <> []) l -> skip_empty l = l.
Proof.
  intros H. induction H as [|x l Hx Hl IH]; [done|]. destruct l as [|y l]; [by destruct x|].
  destruct x as [|a x]; [done|]. cbn [skip_empty] in *. by rewrite IH.
Qed.
Lemma star_proper : proper (L "*").
Proof. split_and!; [done|done|done|]. apply (bool_decide_eq_false _). by vm_compute. Qed.
Lemma slashed_segs l : Forall proper l -> l <> [] -> uri_segs (slashed l) = l.
Proof.
  intros H Hne. unfold uri_segs, slashed.
  assert (trim_suffix (L "/") ("/"%char :: join (L "/") l) = "/"%char :: join (L "/") l) as ->.
  { unfold trim_suffix. destruct (has_suffix (L "/") ("/"%char :: join (L "/") l)) eqn:E; [|done]. exfalso.
    apply has_suffix_last in E as ([|a t] & E); [assert (join (L "/") l = []) as E' by (cbn [app] in E; congruence); by apply join_nonempty in E'|].
    assert (join (L "/") l = t ++ ["/"%char]) as E' by (cbn [app] in E; congruence). eapply join_no_trailing; [|exact E'].
    eapply Forall_impl; [exact H|]. by intros x (? & ? & ? & ?). }
  cbn [split_byte]. change (Ascii.eqb "/" "/") with true. cbn iota. rewrite split_join_proper by done.
  assert (skip_empty ([] :: l) = match l with [] => [[]] | [y] => [y] | y :: r => y :: skip_empty r end) as ->.
  { destruct l as [|y [|z l]]; done. }
  destruct l as [|y [|z l]]; [done|done|]. f_equal. apply skip_empty_id.
  apply Forall_tail in H. simpl in H. eapply Forall_impl; [exact H|]. by intros x (? & _).
Qed.

Section Named.
Variable re_ok : gostr -> bool.
Variable re_find : gostr -> gostr -> option (list gostr).

Lemma literal_pat s p : literal_seg s -> analyzePattern re_ok s = Ok p -> p = mkPat PStatic s s [] None.
Proof.
  intros Hs Hp. pose proof (literal_no_star s Hs) as Hn. destruct Hs as (Hp1 & H1 & H2 & H3 & H4).
  assert (analyzePattern re_ok s = Ok (mkPat PStatic s s [] None)) as E by (apply analyze_grammar; by constructor). congruence.
Qed.
Lemma star_pat p : analyzePattern re_ok (L "*") = Ok p -> p = mkPat PMatchAll (L "*") [] [] None.
Proof. vm_compute. by intros [= <-]. Qed.

Lemma static_pattern pre p : Forall literal_seg pre -> uri_route re_ok (slashed (pre ++ [L "*"])) p ->
  p = map (fun s => mkPat PStatic s s [] None) pre ++ [mkPat PMatchAll (L "*") [] [] None].
Proof.
  intros Hpre Hu. unfold uri_route in Hu. rewrite slashed_segs in Hu.
  - clear -Hpre Hu. revert p Hu. induction Hpre as [|s pre Hs Hpre IH]; intros p Hu; cbn [app map] in *.
    + inversion Hu as [|? q ? l Hq Hl]; subst. inversion Hl; subst. by rewrite (star_pat q Hq).
    + inversion Hu as [|? q ? l Hq Hl]; subst. rewrite (literal_pat s q Hs Hq). f_equal. by apply IH.
  - apply Forall_app. split; [|repeat constructor; apply star_proper]. eapply Forall_impl; [exact Hpre|]. by intros s (? & _).
  - by destruct pre.
Qed.
Lemma static_names pre ss : 
  let p := map (fun s => mkPat PStatic s s [] None) pre ++ [mkPat PMatchAll (L "*") [] [] None] in
  lasting_names 0 p = [L "*0"] /\
  (route_accepts re_find p ss -> exists rest, rest <> [] /\ ss = pre ++ rest /\
     (list_to_map (route_binds re_find 0 p ss) : Params) !! L "*0" = Some (join (L "/") rest)).
Proof.
  cbv zeta. revert ss. induction pre as [|s pre IH]; intros ss.
  - split; [done|]. intros Ha. inversion Ha as [? s Hs| ? s rest Ht Hr|? ? s rest Hs Hr]; subst.
    + exists [s]. split_and!; [done|done|]. cbn [map app route_binds]. change (p_typ _) with PMatchAll. cbn iota.
      unfold glob_binds. rewrite decide_True by done. cbn. change (L "*0") with (glob_key 0). by rewrite lookup_insert.
    + exists (s :: rest). split_and!; [done|done|]. cbn [map app route_binds]. change (p_typ _) with PMatchAll. cbn iota.
      unfold glob_binds. rewrite decide_True by done. cbn. change (L "*0") with (glob_key 0). by rewrite lookup_insert.
    + by inversion Hr.
  - cbn [map app]. 
    assert (exists q r, map (fun s => mkPat PStatic s s [] None) pre ++ [mkPat PMatchAll (L "*") [] [] None] = q :: r) as (q & r & Eq)
      by (destruct pre; by eexists _, _).
    split.
    + destruct (IH ss) as [Hn _]. rewrite Eq in Hn |- *. exact Hn.
    + intros Ha. rewrite Eq in Ha. inversion Ha as [| |? ? t rest Hs Hr]; subst.
      destruct (IH rest) as [_ IH']. rewrite Eq in IH'. destruct (IH' Hr) as (rest' & H1 & -> & H3).
      exists rest'. split; [done|]. unfold seg_accepts in Hs. cbn [p_typ p_raw] in Hs. subst t. split; [done|]. rewrite Eq. exact H3.
Qed.
End Named.

(** ** Replies *)
Section Top.
Context {A V F O : Type}.
Variable re_ok : gostr -> bool.
Variable re_find : gostr -> gostr -> option (list gostr).
Variable sniff : gostr -> gostr.
Variable parse_form : bool -> request -> gostr * bool -> gmap gostr (list gostr) * bool * gostr.
Variable code : handler A -> prog V.
Variable location : request -> gostr -> gostr.
Variable page : request -> gostr -> Z -> gostr.
Variable serve : request -> gostr -> gostr -> gostr -> F -> list (gostr * option gostr) * Z * list gostr.
Variable serve_file : request -> gostr -> gostr -> gostr -> gostr -> O -> list (gostr * option gostr) * Z * list gostr.
Local Notation ran := (ran sniff parse_form code).
Local Notation ServeHTTP := (ServeHTTP re_find sniff parse_form code).
Local Notation handler_ := (static_handler (V:=V) location page serve serve_file).
Local Notation static_reply := (static_reply location page serve serve_file).

(** the status codes of net/http are valid *)
Hypothesis serve_valid : forall r t etag enc f, valid_code (serve r t etag enc f).1.2 = true.
Hypothesis serve_file_valid : forall r t etag enc p os, valid_code (serve_file r t etag enc p os).1.2 = true.

Lemma expiring_empty o : expiring_on o ∅ = expiring o.
Proof. unfold expiring_on, expiring. by destruct (so_expires o). Qed.
Lemma announced_empty o mtime size base : announced_on o mtime size base ∅ = announced o mtime size base.
Proof. unfold announced_on, announced. rewrite expiring_empty. done. Qed.
Lemma expiring_get o k : canon k <> L "Expires" -> h_get (expiring o) k = [].
Proof.
  intros Hk. unfold expiring, h_get, h_values. destruct (so_expires o) as [v|]; [|by rewrite lookup_empty].
  by rewrite lookup_singleton_ne.
Qed.
Lemma announced_get o mtime size base k : canon k <> L "Expires" -> canon k <> L "Etag" -> h_get (announced o mtime size base) k = [].
Proof.
  intros Hk Hk'. unfold announced. case_decide; [by apply expiring_get|].
  pose proof (expiring_get o k Hk) as Hg. unfold h_get, h_values in Hg |- *. by rewrite lookup_insert_ne.
Qed.

Lemma static_ran h o open os id (m : Params) name n r body en c' :
  code h = handler_ o open os -> m !! L "*0" = Some name -> rq_method r = L "GET" \/ rq_method r = L "HEAD" ->
  ran id [h] (Some m) n r body en c' ->
  en = EDone /\ exists a, static_reply o (open name) os name r a /\
    rw_sent (cn_rw c') = Some (a.1.1, a.1.2) /\ rw_body (cn_rw c') = a.2.
Proof.
  intros Hh Hm Hmeth Hr. apply run_one in Hr as (next & _ & Hr). rewrite Hh in Hr.
  set (x := fresh id [h] (Some m) n) in Hr. set (c := log (arrive r body) (EvStart 0)) in Hr.
  assert (x_params x = Some m) as Hx by done.
  assert (x_written x = false) as Hw by done.
  assert (cn_rw c = rw_new) as Hc by done. assert (cn_req c = r) as Hq by done. clearbody x c.
  assert (rw_sent (cn_rw c) = None) as Hs by (by rewrite Hc).
  assert (rw_hdr (cn_rw c) = ∅) as Hd by (by rewrite Hc).
  assert (rw_body (cn_rw c) = []) as Hb by (by rewrite Hc).
  destruct (open name) as [| | |mtime size base f] eqn:Ho.
  - destruct (static_missing sniff parse_form location page serve serve_file next o open os x c m name Hx Hm (or_introl Ho) Hs Hw)
      as (x1 & c1 & E & _ & _ & S1 & B1). rewrite E in Hr. destruct Hr as [-> Hrw]. split; [done|].
    exists (404, ∅, []). split; [by constructor; left|]. rewrite Hrw, S1, B1, Hd, Hb. done.
  - destruct (static_missing sniff parse_form location page serve serve_file next o open os x c m name Hx Hm (or_intror Ho) Hs Hw)
      as (x1 & c1 & E & _ & _ & S1 & B1). rewrite E in Hr. destruct Hr as [-> Hrw]. split; [done|].
    exists (404, ∅, []). split; [by constructor; right|]. rewrite Hrw, S1, B1, Hd, Hb. done.
  - destruct (static_folder sniff parse_form location page serve serve_file next o open os x c m name Hx Hm Ho)
      as (c1 & E & W1 & R1). rewrite E in Hr. clear E. rewrite Hq in Hr. cbv zeta in Hr. rewrite Hd, Hs, Hb, expiring_empty in W1. rewrite Hq in R1.
    destruct (has_suffix (L "/") (rq_path r) || has_suffix (L "/") (Clean (rq_path r))) eqn:Ef.
    + destruct (serve_file r [] [] [] (filepath_Join [name; so_index o]) os) as [[hs n'] out] eqn:Es.
      destruct (exec_file sniff parse_form serve_file next (filepath_Join [name; so_index o]) os PRet x c1 hs n' out)
        as (c2 & E & S2 & B2).
      * by rewrite W1.
      * rewrite W1, R1. cbn [rw_hdr]. rewrite !expiring_get by done. done.
      * pose proof (serve_file_valid r [] [] [] (filepath_Join [name; so_index o]) os) as Hv. by rewrite Es in Hv.
      * rewrite E in Hr. cbn [Ctx.pexec] in Hr. destruct Hr as [-> Hrw]. split; [done|].
        exists (completed (expiring o) (hs, n', out)). split.
        { rewrite <- Es. apply sr_index; [done|]. apply orb_true_iff in Ef as [Ef|Ef]; [by left|right; by apply Clean_trailing]. }
        rewrite Hrw, S2, B2, W1. done.
    + apply orb_false_iff in Ef as [Ef1 Ef2].
      destruct (exec_raw_redirect sniff parse_form location page next (Clean (rq_path r) ++ L "/") x c1) as (c2 & E & S2 & B2).
      * by rewrite W1.
      * rewrite W1. cbn [rw_hdr]. rewrite expiring_get; [reflexivity|discriminate].
      * by rewrite R1.
      * rewrite E in Hr. destruct Hr as [-> Hrw]. split; [done|]. eexists. split.
        { apply sr_redirect; [done|done|]. intros Hcl. rewrite Hcl in Ef2. done. }
        rewrite Hrw, S2, B2, W1, R1. done.
  - destruct (decide (so_etag o <> 0%nat /\ h_get (rq_header r) (L "If-None-Match") = static_tag (so_etag o) mtime size base)) as [[H1 H2]|Hn].
    + destruct (static_not_modified sniff parse_form location page serve serve_file next o open os x c m name mtime size base f Hx Hm Ho Hs Hw H1)
        as (x1 & c1 & E & _ & _ & S1 & B1); [by rewrite Hq|].
      rewrite E in Hr. destruct Hr as [-> Hrw]. split; [done|]. eexists. split; [by eapply sr_unchanged|].
      rewrite Hrw, S1, B1, Hd, Hb, announced_empty. done.
    + destruct (serve r [] (h_get (announced o mtime size base) (L "Etag")) [] f) as [[hs n'] out] eqn:Es.
      destruct (static_content sniff parse_form location page serve serve_file next o open os x c m name mtime size base f hs n' out Hx Hm Ho Hs)
        as (c1 & E & S1 & B1).
      * intros Ht Ht'. apply Hn. by rewrite <- Hq.
      * rewrite Hd, announced_empty, Hq, !(announced_get _ _ _ _ (L "Content-Type")), !(announced_get _ _ _ _ (L "Content-Encoding")) by done. done.
      * pose proof (serve_valid r [] (h_get (announced o mtime size base) (L "Etag")) [] f) as Hv. by rewrite Es in Hv.
      * rewrite E in Hr. destruct Hr as [-> Hrw]. split; [done|].
        exists (completed (announced o mtime size base) (hs, n', out)). split.
        { rewrite <- Es. apply sr_content; [done|]. intros Ht Ht'. by apply Hn. }
        rewrite Hrw, S1, B1, Hd, Hb, announced_empty. done.
Qed.

Lemma static_served ops r0 opts e id x r body en px c' v pre h o open os :
  engine_of re_ok ops r0 opts e -> ServeHTTP e id x (arrive r body) = (en, px, c') -> (forall n, ~ refused r n) ->
  sole_route re_ok re_find e v r -> Forall literal_seg pre -> rt_variant v = slashed (pre ++ [L "*"]) ->
  rt_handlers v = [h] -> code h = handler_ o open os -> rq_method r = L "GET" \/ rq_method r = L "HEAD" ->
  exists name, file_name pre r name /\ en = EDone /\
    exists a, static_reply o (open name) os name r a /\
      rw_sent (cn_rw c') = Some (a.1.1, a.1.2) /\ rw_body (cn_rw c') = a.2.
Proof.
  intros He H Href (Hv & Hfit & Hsole) Hpre Hvar Hh Hc Hmeth.
  assert (Hnv : ~ literal re_ok v).
  { intros (p & Hp & Hall). rewrite Hvar in Hp. apply static_pattern in Hp; [|done]. subst p.
    rewrite Forall_app in Hall. destruct Hall as [_ Hall]. by inversion Hall. }
  destruct (serve_chosen re_ok re_find sniff parse_form code _ _ _ _ _ _ _ _ _ _ _ He H Href) as [Hno|(v' & p & tbl & m & n & Hv' & Hp & Ht & Hran & Hch & Hb & _)].
  { intros u Hu Hver. assert (u = v) as -> by (apply Hsole; [done|by right]). by destruct Hver as (_ & _ & _ & ?). }
  { by destruct (Hno v Hv). }
  assert (v' = v) as ->.
  { unfold method_routes in Hv'. apply elem_of_list_In, List.filter_In in Hv' as [Hin Hm]. apply seqb_true in Hm. apply elem_of_list_In in Hin.
    apply Hsole; [done|]. left. split; [done|]. exists p. split; [done|]. apply Hch. }
  rewrite Hvar in Hp. apply static_pattern in Hp; [|done]. subst p.
  destruct (static_names re_find pre (path_segs (rq_path r))) as [Hn Ha].
  destruct Ha as (rest & Hr1 & Hr2 & Hr3); [apply Hch|].
  destruct (bn_lasting _ _ _ _ _ Hb (L "*0")) as (w & Hw1 & Hw2); [rewrite Hn; left|].
  exists w. split; [exists rest; split_and!; [done|done|congruence]|].
  rewrite Hh in Hran. by apply (static_ran h o open os id m w n r body en c').
Qed.
End Top.

(** ** Where replies come from *)
Section Origin.
Context {A V F O : Type}.
Variable re_ok : gostr -> bool.
Variable re_find : gostr -> gostr -> option (list gostr).
Variable sniff : gostr -> gostr.
Variable parse_form : bool -> request -> gostr * bool -> gmap gostr (list gostr) * bool * gostr.
Variable location : request -> gostr -> gostr.
Variable page : request -> gostr -> Z -> gostr.
Variable serve : request -> gostr -> gostr -> gostr -> F -> list (gostr * option gostr) * Z * list gostr.
Variable serve_file : request -> gostr -> gostr -> gostr -> gostr -> O -> list (gostr * option gostr) * Z * list gostr.
Local Notation handler_ := (static_handler (V:=V) location page serve serve_file).
Local Notation static_reply := (static_reply location page serve serve_file).

Lemma reply_fun o en os os' name r a a' :
  (en = Folder -> has_suffix (L "/") (rq_path r) = false /\ Clean (rq_path r) <> L "/") ->
  static_reply o en os name r a -> static_reply o en os' name r a' -> a = a'.
Proof.
  intros Hf. intros [H1|? ? ? ? H1 H2 H3|? ? ? ? H1 H2|H1 H2 H3 loc|H1 H2] [K1|? ? ? ? K1 K2 K3|? ? ? ? K1 K2|K1 K2 K3 loc'|K1 K2];
    try (destruct H1; congruence); try (destruct K1; congruence); try reflexivity; try congruence.
  all: first [ exfalso; destruct (Hf H1) as [F1 F2]; (destruct H2 as [H2|H2] || destruct K2 as [K2|K2]); congruence
             | rewrite H1 in K1; injection K1; intros; subst; first [reflexivity | by destruct K2 | by destruct H2] ].
Qed.
Lemma file_name_fun pre r n n' : file_name pre r n -> file_name pre r n' -> n = n'.
Proof. intros (l & _ & H1 & ->) (l' & _ & H2 & ->). rewrite H1 in H2. by apply app_inv_head in H2 as ->. Qed.

Lemma same_origin (code code' : handler A -> prog V) ops r0 opts e id x r body en px c' en' px' c2 v pre h o open os open' os' name :
  (forall r t etag enc f, valid_code (serve r t etag enc f).1.2 = true) ->
  (forall r t etag enc p os, valid_code (serve_file r t etag enc p os).1.2 = true) ->
  engine_of re_ok ops r0 opts e ->
  ServeHTTP re_find sniff parse_form code e id x (arrive r body) = (en, px, c') ->
  ServeHTTP re_find sniff parse_form code' e id x (arrive r body) = (en', px', c2) -> (forall n, ~ refused r n) ->
  sole_route re_ok re_find e v r -> Forall literal_seg pre -> rt_variant v = slashed (pre ++ [L "*"]) ->
  rt_handlers v = [h] -> code h = handler_ o open os -> code' h = handler_ o open' os' ->
  rq_method r = L "GET" \/ rq_method r = L "HEAD" ->
  file_name pre r name -> open name = open' name ->
  (open name = Folder -> has_suffix (L "/") (rq_path r) = false /\ Clean (rq_path r) <> L "/") ->
  rw_sent (cn_rw c') = rw_sent (cn_rw c2) /\ rw_body (cn_rw c') = rw_body (cn_rw c2).
Proof.
  intros V1 V2 He H1 H2 Href Hs Hpre Hv Hh Hc Hc' Hm Hn Ho Hf.
  destruct (static_served re_ok re_find sniff parse_form code location page serve serve_file V1 V2 _ _ _ _ _ _ _ _ _ _ _ _ _ _ _ _ _ He H1 Href Hs Hpre Hv Hh Hc Hm)
    as (n1 & N1 & _ & a1 & R1 & S1 & B1).
  destruct (static_served re_ok re_find sniff parse_form code' location page serve serve_file V1 V2 _ _ _ _ _ _ _ _ _ _ _ _ _ _ _ _ _ He H2 Href Hs Hpre Hv Hh Hc' Hm)
    as (n2 & N2 & _ & a2 & R2 & S2 & B2).
  rewrite (file_name_fun _ _ _ _ N1 Hn) in R1. rewrite (file_name_fun _ _ _ _ N2 Hn) in R2. rewrite <- Ho in R2.
  rewrite (reply_fun _ _ _ _ _ _ _ _ Hf R1 R2) in S1, B1. split; congruence.
Qed.
End Origin.

(** ** Tags *)
Lemma put_headers_other k hs : forall h, (forall kv, kv ∈ hs -> canon kv.1 <> canon k) -> h_get (put_headers hs h) k = h_get h k.
Proof.
  induction hs as [|[key o] hs IH]; intros h Hk; [done|].
  assert (canon key <> canon k) as Hne by (apply (Hk (key, o)); left).
  change (put_headers ((key, o) :: hs) h) with (put_headers hs (match o with Some v => h_set h key v | None => h_del h key end)).
  rewrite IH by (intros kv Hin; apply Hk; by right). unfold h_get, h_values, h_set, h_del. destruct o.
  - by rewrite lookup_insert_ne.
  - by rewrite lookup_delete_ne.
Qed.
Lemma announced_tag o mtime size base : so_etag o <> 0%nat ->
  h_get (announced o mtime size base) (L "Etag") = static_tag (so_etag o) mtime size base.
Proof. intros H. unfold announced. rewrite decide_False by done. unfold h_get, h_values. change (canon (L "Etag")) with (L "Etag"). by rewrite lookup_insert. Qed.

Section Tags.
Context {A V F O : Type}.
Variable re_ok : gostr -> bool.
Variable re_find : gostr -> gostr -> option (list gostr).
Variable sniff : gostr -> gostr.
Variable parse_form : bool -> request -> gostr * bool -> gmap gostr (list gostr) * bool * gostr.
Variable code : handler A -> prog V.
Variable location : request -> gostr -> gostr.
Variable page : request -> gostr -> Z -> gostr.
Variable serve : request -> gostr -> gostr -> gostr -> F -> list (gostr * option gostr) * Z * list gostr.
Variable serve_file : request -> gostr -> gostr -> gostr -> gostr -> O -> list (gostr * option gostr) * Z * list gostr.
Hypothesis serve_valid : forall r t etag enc f, valid_code (serve r t etag enc f).1.2 = true.
Hypothesis serve_file_valid : forall r t etag enc p os, valid_code (serve_file r t etag enc p os).1.2 = true.

Lemma tag_reply_on ops r0 opts (e : engine A) id x r body en px c' v pre h o open os name mtime size base f :
  engine_of re_ok ops r0 opts e -> ServeHTTP re_find sniff parse_form code e id x (arrive r body) = (en, px, c') ->
  (forall n, ~ refused r n) -> sole_route re_ok re_find e v r ->
  Forall literal_seg pre -> rt_variant v = slashed (pre ++ [L "*"]) ->
  rt_handlers v = [h] -> code h = static_handler location page serve serve_file o open os ->
  rq_method r = L "GET" \/ rq_method r = L "HEAD" ->
  file_name pre r name -> open name = Regular mtime size base f -> so_etag o <> 0%nat ->
  let tag := static_tag (so_etag o) mtime size base in
  let '(hs, n, out) := serve r [] tag [] f in
  let hd := announced o mtime size base in
    (h_get (rq_header r) (L "If-None-Match") = tag ->
       rw_sent (cn_rw c') = Some (304, hd) /\ rw_body (cn_rw c') = []) /\
    (h_get (rq_header r) (L "If-None-Match") <> tag ->
       rw_sent (cn_rw c') = Some (n, put_headers hs hd) /\
       rw_body (cn_rw c') = if body_allowed n then concat out else []).
Proof.
  intros He H Href Hs Hpre Hv Hh Hc Hm Hn Ho Het tag.
  destruct (static_served re_ok re_find sniff parse_form code location page serve serve_file serve_valid serve_file_valid
    _ _ _ _ _ _ _ _ _ _ _ _ _ _ _ _ _ He H Href Hs Hpre Hv Hh Hc Hm) as (n1 & N1 & _ & a1 & R1 & S1 & B1).
  rewrite (file_name_fun _ _ _ _ N1 Hn), Ho in R1. clear N1 n1.
  destruct (serve r [] tag [] f) as [[hs n] out] eqn:Es. intros hd. rewrite S1, B1.
  inversion R1 as [[H1|H1]|? ? ? ? H1 H2 H3|? ? ? ? H1 H2|H1 H2 H3 loc|H1 H2]; try discriminate H1; injection H1 as <- <- <- <-; cbn [fst snd].
  - split; [|intros Hx; by destruct Hx]. done.
  - rewrite announced_tag by done. fold tag. rewrite Es. cbn [completed fst snd]. split; [intros Hx; by destruct (H2 Het)|]. done.
Qed.
Lemma tag_reply ops r0 opts (e : engine A) id x r body en px c' v pre h o open os name mtime size base f :
  engine_of re_ok ops r0 opts e -> ServeHTTP re_find sniff parse_form code e id x (arrive r body) = (en, px, c') ->
  (forall n, ~ refused r n) -> sole_route re_ok re_find e v r ->
  Forall literal_seg pre -> rt_variant v = slashed (pre ++ [L "*"]) ->
  rt_handlers v = [h] -> code h = static_handler location page serve serve_file o open os ->
  rq_method r = L "GET" \/ rq_method r = L "HEAD" ->
  file_name pre r name -> open name = Regular mtime size base f -> so_etag o <> 0%nat ->
  let tag := static_tag (so_etag o) mtime size base in
  let '(hs, n, out) := serve r [] tag [] f in
  exists hd,
    (h_get (rq_header r) (L "If-None-Match") = tag ->
       rw_sent (cn_rw c') = Some (304, hd) /\ h_get hd (L "Etag") = tag /\ rw_body (cn_rw c') = []) /\
    (h_get (rq_header r) (L "If-None-Match") <> tag ->
       rw_sent (cn_rw c') = Some (n, hd) /\
       ((forall kv, kv ∈ hs -> canon kv.1 <> L "Etag") -> h_get hd (L "Etag") = tag) /\
       rw_body (cn_rw c') = if body_allowed n then concat out else []).
Proof.
  intros He H Href Hs Hpre Hv Hh Hc Hm Hn Ho Het tag.
  pose proof (tag_reply_on _ _ _ _ _ _ _ _ _ _ _ _ _ _ _ _ _ _ _ _ _ _ He H Href Hs Hpre Hv Hh Hc Hm Hn Ho Het) as R. cbv zeta in R. fold tag in R.
  destruct (serve r [] tag [] f) as [[hs n] out]. destruct R as [R1 R2].
  exists (if decide (h_get (rq_header r) (L "If-None-Match") = tag) then announced o mtime size base else put_headers hs (announced o mtime size base)).
  split; intros Hx.
  - rewrite decide_True by done. destruct (R1 Hx) as [R3 R4]. split; [done|]. split; [by apply announced_tag|done].
  - rewrite decide_False by done. destruct (R2 Hx) as [R3 R4]. split; [done|]. split; [|done].
    intros Hk. rewrite put_headers_other by exact Hk. by apply announced_tag.
Qed.
End Tags.
