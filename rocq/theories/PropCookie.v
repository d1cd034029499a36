(** Properties of cookies, over a model of the cookies of net/http. *)
From Verif Require Import Base GoStr Strconv StrconvFacts Util Pattern Tree TreeSpec Header Router RouterSpec Ctx CtxFacts TraceSpec
  Engine EngineSpec ServeTop ServeThms Content ContentFacts StaticSpec UtilSpec UtilFacts RequestSpec HelperSpec HelperFacts HelperLog
  Getters NetCookie CookieSpec CookieFacts CookieDomain CookieText CookieServe
  ExampleRegexp ExampleRouter ExampleServe PropMiddleware PropBehind.
Local Open Scope Z_scope.

(** a request with these Cookie lines *)
Definition ek_req (lines : list gostr) : request := mkReq (L "GET") 1 1 (L "/") [] {[ L "Cookie" := lines ]} [] false.

(** ** C102: what SetCookie sets, Cookie returns *)
(** A value with other bytes comes back without them. *)
Theorem C102_value_refuted :
  exists value t attrs, ua_read (cookie_String (SetCookie (L "id") value [])) = Some (L "id", t, attrs) /\ storable (L "id", t) /\
  Cookie request_cookie (ek_req [cookie_line [(L "id", t)]]) (L "id") <> value.
Proof.
  exists (L "a;b"), (L "ab"), [(L "Path", L "/")]. split; [vm_compute; reflexivity|]. split.
  - apply (written_storable (L "id") (L "ab")).
    + split; [done|]. apply RequestFacts.token_dec. reflexivity.
    + repeat constructor; try done; vm_compute; discriminate.
  - vm_compute. discriminate.
Qed.
Print Assumptions C102_value_refuted.
(** A cookie of another name is returned: if the name asked for is empty, the first
    one; and one whose name begins with a no-break space for the rest of its name,
    though the cookie of that name follows. *)
Theorem C102_other_cookie_refuted :
  Cookie request_cookie (ek_req [cookie_line [(L "a", L "1")]]) [] = L "1" /\
  exists name other, other <> name /\ strip other = other /\ "="%char ∉ other /\ ";"%char ∉ other /\
    Cookie request_cookie (ek_req [cookie_line [(other, L "evil"); (name, L "good")]]) name = L "evil".
Proof.
  split; [vm_compute; reflexivity|]. exists (L "id"), (["194"; "160"]%char ++ L "id"). split; [done|].
  split; [vm_compute; reflexivity|]. split; [apply GoStrFacts.contains_byte_false; reflexivity|].
  split; [apply GoStrFacts.contains_byte_false; reflexivity|]. vm_compute. reflexivity.
Qed.
Print Assumptions C102_other_cookie_refuted.
(** A client reads the name and some text from the line; when it sends this back, in
    any of the Cookie lines, among any other cookies whose names are printable ASCII
    and, if they come first, other ones, Cookie returns the bytes of the value that
    cookies can carry, in order. *)
Theorem C102_kept_partial :
  forall name value others w, cookie_name name -> kept carried value w ->
  exists t attrs, ua_read (cookie_String (SetCookie name value others)) = Some (name, t, attrs) /\ storable (name, t) /\
  forall r lines before after rest,
  Forall (Forall (fun c => storable c /\ c.1 <> name)) lines -> Forall (fun c => storable c /\ c.1 <> name) before -> Forall storable after ->
  rq_header r !! L "Cookie" = Some (map cookie_line lines ++ cookie_line (before ++ (name, t) :: after) :: rest) ->
  Cookie request_cookie r name = w.
Proof.
  intros name value others w Hn Hw. exists (written w), (map ua_attr (attr_texts (SetCookie name value others))).
  split; [by apply (ua_reads (SetCookie name value others))|]. pose proof (kept_P _ _ _ Hw). split; [by apply written_storable|].
  intros r lines before after rest H1 H2 H3 H4. by eapply cookie_sent_back.
Qed.
Print Assumptions C102_kept_partial.
(** In particular values of such bytes come back unchanged. *)
Theorem C102_partial :
  forall name value others, cookie_name name -> Forall carried value ->
  exists t attrs, ua_read (cookie_String (SetCookie name value others)) = Some (name, t, attrs) /\
  forall r lines before after rest,
  Forall (Forall (fun c => storable c /\ c.1 <> name)) lines -> Forall (fun c => storable c /\ c.1 <> name) before -> Forall storable after ->
  rq_header r !! L "Cookie" = Some (map cookie_line lines ++ cookie_line (before ++ (name, t) :: after) :: rest) ->
  Cookie request_cookie r name = value.
Proof.
  intros name value others Hn Hv. destruct (C102_kept_partial name value others value Hn (kept_all _ _ Hv)) as (t & attrs & H1 & _ & H2).
  exists t, attrs. done.
Qed.
Print Assumptions C102_partial.
(** Numbers written in decimal, true and false come back as the typed getters read
    them. *)
Theorem C102_typed :
  forall name others,
  cookie_name name ->
  (forall z, min64 <= z <= max64 -> exists t attrs, ua_read (cookie_String (SetCookie name (itoa z) others)) = Some (name, t, attrs) /\
     forall r rest, rq_header r !! L "Cookie" = Some (cookie_line [(name, t)] :: rest) ->
     CookieInt64 request_cookie r name = z /\ CookieInt request_cookie r name = z) /\
  (forall b : bool, exists t attrs, ua_read (cookie_String (SetCookie name (if b then L "true" else L "false") others)) = Some (name, t, attrs) /\
     forall r rest, rq_header r !! L "Cookie" = Some (cookie_line [(name, t)] :: rest) -> CookieBool request_cookie r name = b).
Proof.
  intros name others Hn. split.
  - intros z Hz. assert (Forall carried (itoa z)) as Hc.
    { assert (forall s, Forall UtilSpec.is_digit s -> Forall carried s) as Hd.
      { intros s Hs. eapply Forall_impl; [exact Hs|]. unfold UtilSpec.is_digit, carried. intros a Ha. split; [lia|].
        split_and!; intros ->; vm_compute in Ha; intuition congruence. }
      destruct (itoa_decimal z) as [s _ H|s _ H|s _ H]; [by apply Hd| |]; (constructor; [|by apply Hd]);
        (split; [vm_compute; intuition congruence|done]). }
    destruct (C102_partial name (itoa z) others Hn Hc) as (t & attrs & H1 & H2). exists t, attrs. split; [done|]. intros r rest Hr.
    assert (Cookie request_cookie r name = itoa z) as E.
    { apply (H2 r [] [] [] rest); [constructor..|]. exact Hr. }
    assert (2 <= 64 <= 64)%N as Hb by lia. pose proof (parse_int_decimal 64 (itoa z) z Hb (itoa_decimal z)) as Hp.
    assert ((parse_int 64 (itoa z)).1 = z) as Ez. { rewrite Hp. unfold clamp, min64, max64 in *. cbn [fst]. lia. }
    unfold CookieInt64, CookieInt. rewrite E. split; [exact Ez|]. by rewrite atoi_parse_int.
  - intros b. assert (Forall carried (if b then L "true" else L "false")) as Hc.
    { apply Forall_forall. intros a Ha. apply valid_carried. assert (forallb validCookieValueByte (if b then L "true" else L "false") = true) as Hf by (by destruct b).
      rewrite forallb_forall in Hf. apply Hf. by apply elem_of_list_In. }
    destruct (C102_partial name _ others Hn Hc) as (t & attrs & H1 & H2). exists t, attrs. split; [done|]. intros r rest Hr.
    assert (Cookie request_cookie r name = (if b then L "true" else L "false")) as E.
    { apply (H2 r [] [] [] rest); [constructor..|]. exact Hr. }
    unfold CookieBool. rewrite E. by destruct b.
Qed.
Print Assumptions C102_typed.
(** Without a cookie of that name, Cookie returns the empty string. *)
Theorem C102_absent_partial :
  forall r name lines, name <> [] -> Forall (Forall (fun c => storable c /\ c.1 <> name)) lines ->
  (rq_header r !! L "Cookie" = None /\ lines = []) \/ rq_header r !! L "Cookie" = Some (map cookie_line lines) ->
  Cookie request_cookie r name = [].
Proof. intros r name lines H1 H2 H3. unfold Cookie. by rewrite (cookie_absent r name lines). Qed.
Print Assumptions C102_absent_partial.
Example C102_case : cookie_name (L "id") /\ Forall carried (L "a, b=c") /\ storable (L "x", L "\1") /\ storable (L "id", L """a, b=c""") /\
  ua_read (cookie_String (SetCookie (L "id") (L "a, b=c") [DInt 5])) = Some (L "id", L """a, b=c""", [(L "Path", L "/"); (L "Max-Age", L "5")]) /\
  Cookie request_cookie (ek_req [L "y=2"; cookie_line [(L "x", L "\1"); (L "id", L """a, b=c"""); (L "id", L "old")]; L "junk"]) (L "id") = L "a, b=c".
Proof.
  assert (cookie_name (L "id")) as Hn by (split; [done|]; apply RequestFacts.token_dec; reflexivity).
  assert (Forall carried (L "a, b=c")) as Hc.
  { apply Forall_forall. intros a Ha. apply valid_carried. assert (forallb validCookieValueByte (L "a, b=c") = true) as Hf by reflexivity.
    rewrite forallb_forall in Hf. apply Hf. by apply elem_of_list_In. }
  split; [done|]. split; [done|]. split.
  { unfold storable. cbn [fst snd]. split; [done|]. split; [vm_compute; reflexivity|]. split; [vm_compute; reflexivity|].
    split; [apply GoStrFacts.contains_byte_false; reflexivity|]. split; [apply GoStrFacts.contains_byte_false; reflexivity|].
    split; [apply GoStrFacts.contains_byte_false; reflexivity|]. constructor; [|constructor]. vm_compute. intuition congruence. }
  split; [exact (written_storable (L "id") (L "a, b=c") Hn Hc)|]. split; vm_compute; reflexivity.
Qed.

(** ** C103: nothing but what was asked for *)
(** Whatever bytes name, value, path and domain have: a client reads from the line the
    name, and the attributes asked for, each from its own argument. *)
Theorem C103_attributes :
  forall name value others,
  (cookie_name name -> exists t l, ua_read (cookie_String (SetCookie name value others)) = Some (name, t, l) /\ asked (SetCookie name value others) l) /\
  (~ cookie_name name -> ua_read (cookie_String (SetCookie name value others)) = None).
Proof.
  intros name value others. split.
  - intros Hn. eexists _, _. split; [apply (ua_reads (SetCookie name value others)); [done|]; apply (filter_kept _ _ _ valid_carried)|]. apply texts_asked.
  - intros Hn. by rewrite string_invalid.
Qed.
Print Assumptions C103_attributes.
(** The line has printable ASCII only: no line break, so no other header either. *)
Theorem C103_printable :
  forall name value others a, a ∈ cookie_String (SetCookie name value others) -> (32 <= N_of_ascii a < 127)%N.
Proof. intros name value others a. apply string_print. Qed.
Print Assumptions C103_printable.
(** Every call of SetCookie by a handler that has not answered yet, behind any others,
    adds its line to the reply, in order; nothing else changes. *)
Theorem C103_sent :
  forall (A V : Type) re_ok re_find sniff parse_form (code : handler A -> prog V) ops r0 opts e id x r body en px c' cs n s k i l1 l2,
  engine_of re_ok ops r0 opts e ->
  ServeHTTP re_find sniff parse_form code e id x (arrive r body) = (en, px, c') -> uses_ctx code e ->
  (forall hs, dispatched re_ok re_find e r hs -> exists g p, hs !! i = Some g /\
     code g = foldr (fun '(name, value, others) => SetCookie_prog name value others) p cs /\ answers_then p n s k) ->
  cn_log c' = l1 ++ EvStart i :: l2 -> ~ responded l1 -> 100 <= n <= 999 ->
  exists m l3 hd, l2 = m ++ l3 /\ starts m = [] /\ rw_sent (cn_rw c') = Some (n, hd) /\
    h_values hd (L "Set-Cookie") = h_values (headers_of l1) (L "Set-Cookie") ++
      map (fun '(name, value, others) => cookie_String (SetCookie name value others)) cs /\
    same_but [L "Set-Cookie"] (headers_of l1) hd /\
    (bodiless n -> rw_body (cn_rw c') = []) /\ (~ bodiless n -> rw_body (cn_rw c') = s ++ data_of l3).
Proof.
  intros A V re_ok re_find sniff parse_form code ops r0 opts e id x r body en px c' cs n s k i l1 l2 He H Hu Hd Hl Hn Hv.
  destruct (cookies_behind re_ok re_find sniff parse_form code _ _ _ _ _ _ _ _ _ _ _ cs n s k i l1 l2 He H Hu) as (m & l3 & hd & H1 & H2 & H3 & H4 & H5); try done.
  { intros hs Hdis. destruct (Hd _ Hdis) as (g & p & E1 & E2 & E3). exists g, p. split; [done|]. split; [|done]. rewrite E2.
    clear. induction cs as [|[[name value] others] cs IH]; [done|]. cbn [foldr]. by rewrite IH. }
  exists m, l3, hd. split; [done|]. split; [done|]. split; [done|]. split; [|done]. rewrite H4. f_equal. apply map_ext. by intros [[name value] others].
Qed.
Print Assumptions C103_sent.
(** With a name that is no token the line is empty, but it is sent. *)
Theorem C103_empty_line :
  forall name value others, ~ cookie_name name -> cookie_String (SetCookie name value others) = [].
Proof. intros name value others H. by apply string_invalid. Qed.
Print Assumptions C103_empty_line.
Example C103_case :
  kx_behind 8 (L "Set-Cookie") 200 [L "a=""x y""; Path=/p; Max-Age=60; Secure"; L "b=2; Path=/"] (L "set") /\
  ua_read (cookie_String (SetCookie (L "a") (L "1; Domain=evil") [DInt (-1); DStr (L "/; Secure"); DStr (L ".a-1.example.org."); DBool false; DBool true; DSameSite 3])) =
    Some (L "a", L """1 Domain=evil""", [(L "Path", L "/ Secure"); (L "Domain", L "a-1.example.org."); (L "Max-Age", L "0"); (L "HttpOnly", []); (L "SameSite", L "Strict")]) /\
  good_domain (L ".a-1.example.org.") /\ good_domain (L "10.0.0.255") /\ ~ good_domain (L "10.0.0.256") /\ ~ good_domain (L "-a.org") /\ ~ good_domain (L "a b.org").
Proof.
  split; [kx|]. split; [vm_compute; reflexivity|]. rewrite <- !domain_spec. vm_compute. repeat split; discriminate.
Qed.
