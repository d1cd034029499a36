(** Where redirects lead, over a model of http.Redirect. *)
From Coq Require Import ZArith NArith.
From Verif Require Import Base GoStr GoStrFacts Strconv Pattern Tree TreeSpec Header Router RouterSpec Ctx CtxFacts TraceSpec
  Engine EngineSpec ServeTop ServeThms CallSpec HttpFacts Content HelperSpec HelperLog UtilSpec StaticSpec NetRedirect RedirectSpec NetRedirectFacts
  ExampleRegexp ExampleRouter ExampleServe PropMiddleware PropBehind.
Local Open Scope Z_scope.

(** the host after user information *)
Definition er_auth (a : gostr) : option gostr :=
  Some (match last_index_byte "@" a with Some i => drop (S i) a | None => a end).
Lemma er_auth_ok a : a <> [] -> "@"%char ∉ a -> er_auth a <> Some [].
Proof.
  intros Hne H. unfold er_auth. assert (last_index_byte "@" a = None) as ->; [|by intros [= ->]].
  clear Hne. induction a as [|b a IH]; [done|]. cbn [last_index_byte]. apply not_elem_of_cons in H as [H1 H2]. rewrite IH by done.
  destruct (Ascii.eqb_spec b "@"); congruence.
Qed.
Definition er_req (path : gostr) : request := mkReq (L "GET") 1 1 path path ∅ [] false.

(** ** C106: where redirects lead *)
(** A target with a scheme or a host is sent as it is given; a path, absolute or
    relative to the directory of the request, without its dot segments and repeated
    slashes, and with the query.  The Location is that text in ASCII. *)
Theorem C106_location :
  forall parseAuthority r uri target,
  (forall a, a <> [] -> "@"%char ∉ a -> parseAuthority a <> Some []) ->
  leads (rq_path r) uri target -> writes target (redirect_location parseAuthority r uri).
Proof. intros pa r uri target Ha Hl. unfold redirect_location. rewrite (redirect_leads_to pa r uri target Ha Hl). apply location_writes. Qed.
Print Assumptions C106_location.
(** Whatever the target is, the link of the page is the one of the Location, written
    so that it stays inside of its quotes. *)
Theorem C106_page :
  forall parseAuthority r uri n text, n = 301 /\ text = L "Moved Permanently" \/ n = 302 /\ text = L "Found" ->
  exists target, writes target (redirect_location parseAuthority r uri) /\ link_page target text (redirect_page_text parseAuthority r uri n) /\
    ((forall a, a <> [] -> "@"%char ∉ a -> parseAuthority a <> Some []) -> forall target', leads (rq_path r) uri target' -> target' = target).
Proof.
  intros pa r uri n text Hn. exists (redirect_url pa r uri). split; [apply location_writes|]. split; [by apply redirect_page_link|].
  intros Ha t Hl. symmetry. by apply redirect_leads_to.
Qed.
Print Assumptions C106_page.
Lemma er_relative : relative_ref (L "../x/./y") (Some (L "a=1")) None.
Proof.
  constructor.
  - split; apply (bool_decide_eq_false _); vm_compute; reflexivity.
  - apply (bool_decide_eq_false _); vm_compute; reflexivity.
  - split; (apply (bool_decide_eq_true _); vm_compute; reflexivity).
  - split; vm_compute; discriminate.
  - left. intros t. discriminate.
  - intros a b E. exfalso. assert (H : ":"%char ∈ L "../x/./y") by (rewrite E; apply elem_of_app; right; left).
    revert H. apply (bool_decide_eq_false _); vm_compute; reflexivity.
Qed.
Lemma er_leads : leads (L "/d/e/f") (L "../x/./y?a=1") (L "/d/x/y?a=1").
Proof.
  refine (leads_local (L "/d/e/f") (L "../x/./y") (Some (L "a=1")) (L "/d/e/../x/./y") er_relative _ _ _).
  - apply (res_merge (L "/d/e/f") (L "/d/e") (L "f") (L "../x/./y")); [reflexivity|apply (bool_decide_eq_false _); vm_compute; reflexivity|intros t; discriminate].
  - reflexivity.
  - apply (bool_decide_eq_false _); vm_compute; reflexivity.
Qed.
Example C106_location_case :
  leads (L "/d/e/f") (L "../x/./y?a=1") (L "/d/x/y?a=1") /\
  redirect_location er_auth (er_req (L "/d/e/f")) (L "../x/./y?a=1") = L "/d/x/y?a=1" /\
  leads (L "/d/e/f") (L "https://a.org/../b") (L "https://a.org/../b") /\
  redirect_location er_auth (er_req (L "/d/e/f")) (L "https://a.org/../b") = L "https://a.org/../b" /\
  leads (L "/d/e/f") (L "//a.org?x") (L "//a.org?x") /\
  redirect_location er_auth (er_req (L "/d/e/f")) (L "//a.org?x") = L "//a.org?x" /\
  redirect_page_text er_auth (er_req (L "/d/e/f")) (L "x?a=""1""&b") 302 =
    L "<a href=""/d/e/x?a=&#34;1&#34;&amp;b"">Found</a>." ++ [ascii_of_nat 10; ascii_of_nat 10].
Proof.
  split; [exact er_leads|]. split; [reflexivity|]. split.
  { apply leads_elsewhere. left. exists (L "https"), (L "//a.org/../b"). split; [|reflexivity].
    exists "h"%char, (L "ttps"). split; [reflexivity|]. split; [|apply Forall_forall; intros x Hx; left]; [left; vm_compute; split; discriminate|].
    revert x Hx. apply Forall_forall. repeat (constructor; [left; vm_compute; split; discriminate|]). constructor. }
  split; [reflexivity|]. split.
  { apply leads_elsewhere. right. exists (L "a.org"), (L "?x"). split; [done|]. split.
    { apply (bool_decide_eq_true _); vm_compute; reflexivity. }
    split; [reflexivity|]. apply (bool_decide_eq_true _); vm_compute; reflexivity. }
  split; reflexivity.
Qed.

(** The path is the one of RFC 3986, section 5.2, unless a segment before the last
    is empty or the last is a dot segment. *)
Theorem C106_rfc_partial :
  forall t a z, split_byte "/" t = a ++ [z] -> Forall (fun x => x <> []) a -> z <> L "." -> z <> L ".." ->
  cleaned ("/"%char :: t) = slashed (remove_dots [] (split_byte "/" t)).
Proof. exact cleaned_rfc. Qed.
Print Assumptions C106_rfc_partial.
Example C106_rfc_case : split_byte "/" (L "a/../b/") = [L "a"; L ".."; L "b"] ++ [[]] /\ cleaned (L "/a/../b/") = L "/b/".
Proof. split; reflexivity. Qed.
(** Otherwise it need not be: an empty segment disappears, and so does the slash that
    a dot segment leaves at the end. *)
Theorem C106_rfc_refuted :
  forall parseAuthority,
  redirect_location parseAuthority (er_req (L "/")) (L "/a//b") = L "/a/b" /\
  slashed (remove_dots [] (split_byte "/" (L "a//b"))) = L "/a//b" /\
  redirect_location parseAuthority (er_req (L "/")) (L "/a/b/..") = L "/a" /\
  slashed (remove_dots [] (split_byte "/" (L "a/b/.."))) = L "/a/".
Proof. intros pa. split_and!; reflexivity. Qed.
Print Assumptions C106_rfc_refuted.
(** A query alone does not lead to the same page with that query, but to the
    directory. *)
Theorem C106_query_only_refuted :
  forall parseAuthority, redirect_location parseAuthority (er_req (L "/list/all")) (L "?page=2") = L "/list/?page=2".
Proof. intros pa. reflexivity. Qed.
Print Assumptions C106_query_only_refuted.
(** A fragment takes part in the cleaning: the path before it can change. *)
Theorem C106_fragment_refuted :
  forall parseAuthority, redirect_location parseAuthority (er_req (L "/")) (L "/page#/../other") = L "/other".
Proof. intros pa. reflexivity. Qed.
Print Assumptions C106_fragment_refuted.
(** The directory that a relative target is put behind is the decoded one: what was
    escaped in it has lost its escapes. *)
Theorem C106_sibling_refuted :
  forall parseAuthority,
  url_path (L "/100%25/x") = Some (L "/100%/x") /\
  url_path (redirect_location parseAuthority (er_req (L "/100%/x")) (L "y")) = None /\
  url_path (L "/a%3Fb/x") = Some (L "/a?b/x") /\
  url_path (redirect_location parseAuthority (er_req (L "/a?b/x")) (L "y")) = Some (L "/a").
Proof. intros pa. split_and!; reflexivity. Qed.
Print Assumptions C106_sibling_refuted.

(** A well-formed reference without scheme and host, with whatever fragment, never
    leads to another host, and if there are no backslashes none appears. *)
Theorem C106_same_host_partial :
  forall parseAuthority r p q f, relative_ref p q f -> head (rq_path r) = Some "/"%char ->
  let loc := redirect_location parseAuthority r (reference p q f) in
  same_host loc /\ ("\"%char ∉ reference p q f -> "\"%char ∉ rq_path r -> "\"%char ∉ loc).
Proof. exact redirect_same_host. Qed.
Print Assumptions C106_same_host_partial.
Example C106_same_host_case :
  relative_ref (L "///evil.com/..//x") None (Some (L "//y")) /\
  redirect_location er_auth (er_req (L "/d/e")) (L "///evil.com/..//x#//y") = L "/x#/y".
Proof.
  split; [|reflexivity]. constructor.
  - split; apply (bool_decide_eq_false _); vm_compute; reflexivity.
  - apply (bool_decide_eq_false _); vm_compute; reflexivity.
  - split; (apply (bool_decide_eq_true _); vm_compute; reflexivity).
  - split; vm_compute; discriminate.
  - right. by exists (L "evil.com/..//x").
  - intros a b E. exfalso. assert (H : ":"%char ∈ L "///evil.com/..//x") by (rewrite E; apply elem_of_app; right; left).
    revert H. apply (bool_decide_eq_false _); vm_compute; reflexivity.
Qed.
(** Others can: a tab makes the target unreadable for net/url, which then sends it as
    it is, and browsers remove it; and a malformed escape keeps the slashes at the
    front. *)
Theorem C106_same_host_refuted :
  forall parseAuthority,
  browser_reads (redirect_location parseAuthority (er_req (L "/")) ("/"%char :: ascii_of_nat 9 :: L "/evil.com")) = L "//evil.com" /\
  redirect_location parseAuthority (er_req (L "/")) (L "///evil.com/%zz") = L "///evil.com/%zz".
Proof. intros pa. split; reflexivity. Qed.
Print Assumptions C106_same_host_refuted.

(** Served: a redirect behind other handlers that have not answered. *)
Theorem C106_served :
  forall (A V : Type) re_ok re_find sniff parse_form (code : handler A -> prog V) parseAuthority
    ops r0 opts e id x r body en px c' uri n text k i l1 l2 target,
  engine_of re_ok ops r0 opts e ->
  ServeHTTP re_find sniff parse_form code e id x (arrive r body) = (en, px, c') -> uses_ctx code e ->
  (forall hs, dispatched re_ok re_find e r hs -> exists g, hs !! i = Some g /\
     (code g = MovedPermanently (redirect_location parseAuthority) (redirect_page_text parseAuthority) uri k /\ n = 301 \/
      code g = Found (redirect_location parseAuthority) (redirect_page_text parseAuthority) uri k /\ n = 302)) ->
  n = 301 /\ text = L "Moved Permanently" \/ n = 302 /\ text = L "Found" ->
  cn_log c' = l1 ++ EvStart i :: l2 -> ~ responded l1 ->
  (forall a, a <> [] -> "@"%char ∉ a -> parseAuthority a <> Some []) -> leads (rq_path r) uri target ->
  exists m l3 hd loc page, l2 = m ++ l3 /\ starts m = [] /\ rw_sent (cn_rw c') = Some (n, hd) /\
    writes target loc /\ h_values hd (L "Location") = [loc] /\
    link_page target text page /\ rw_body (cn_rw c') = redirect_page r (headers_of l1) page ++ data_of l3.
Proof.
  intros A V re_ok re_find sniff parse_form code pa ops r0 opts e id x r body en px c' uri n text k i l1 l2 target He Hs Hu Hd Hx Hl Hn Ha Ht.
  destruct (C54_behind A V re_ok re_find sniff parse_form code (redirect_location pa) (redirect_page_text pa)
    ops r0 opts e id x r body en px c' uri n k i l1 l2 He Hs Hu Hd Hl Hn) as (m & l3 & hd & H1 & H2 & H3 & H4 & H5).
  exists m, l3, hd, (redirect_location pa r uri), (redirect_page_text pa r uri n). split_and!; try done.
  - by apply C106_location.
  - apply H4.
  - rewrite <- (redirect_leads_to pa r uri target Ha Ht). by apply redirect_page_link.
Qed.
Print Assumptions C106_served.
Definition er_code (h : handler nat) : prog gostr :=
  match h with
  | HFuncCtx 0%nat => seqp [OHeaderSet (L "Location") (L "old")] PRet
  | _ => Found (redirect_location er_auth) (redirect_page_text er_auth) (L "../x/./y?a=1") PRet
  end.
Definition er_ops : list (rop nat) := [RNew; RHandle 0 0 (L "/d/e/f") [IFuncCtx 0%nat; IFuncCtx 1%nat]].
Notation er_run e := (ServeHTTP ex_find ex_sniff ex_form er_code e 0 mx_new (arrive (er_req (L "/d/e/f")) no_body)).
Example C106_served_case :
  exists e, engine_of ex_ok er_ops 0 [] e /\ leads (L "/d/e/f") (L "../x/./y?a=1") (L "/d/x/y?a=1") /\
  exists en px c' l2, er_run e = (en, px, c') /\
    cn_log c' = [EvStart 0; EvCall (OHeaderSet (L "Location") (L "old")) (Norm tt); EvEnd 0] ++ EvStart 1 :: l2 /\
    exists hd, rw_sent (cn_rw c') = Some (302, hd) /\ h_values hd (L "Location") = [L "/d/x/y?a=1"] /\
    rw_body (cn_rw c') = L "<a href=""/d/x/y?a=1"">Found</a>." ++ [ascii_of_nat 10; ascii_of_nat 10].
Proof.
  edestruct (with_engine_split ex_ok er_ops [] (fun e => let '(_, _, c') := er_run e in
    (take 4 (cn_log c'), (option_map (fun y => (fst y, h_values (snd y) (L "Location"))) (rw_sent (cn_rw c')), rw_body (cn_rw c'))))) as (e & He & Hs);
    [vm_compute; reflexivity|].
  exists e. split; [exact He|]. split; [exact er_leads|].
  destruct (ServeHTTP _ _ _ _ _ _ _ _) as [[en px] c'] eqn:H. exists en, px, c'.
  apply pair_equal_spec in Hs as [Hl Hs]. apply pair_equal_spec in Hs as [Hs Hb].
  exists (drop 4 (cn_log c')). split; [done|]. split.
  { rewrite <- (take_drop 4 (cn_log c')) at 1. rewrite Hl. reflexivity. }
  destruct (rw_sent (cn_rw c')) as [[n hd]|]; [|discriminate Hs]. cbn [option_map fst snd] in Hs.
  apply (f_equal (fun o => match o with Some y => y | None => (0, []) end)) in Hs. apply pair_equal_spec in Hs as [-> Hs].
  exists hd. split; [done|]. split; [exact Hs|exact Hb].
Qed.
