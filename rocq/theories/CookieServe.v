(** Cookies set by a handler anywhere in the chain. *)
From Verif Require Import Base GoStr GoStrFacts Strconv Util Pattern Tree TreeSpec Header Router Ctx CtxFacts TraceSpec Engine EngineSpec
  ServeFacts ServeProps ServeTop ServeThms ServeDispatch Content ContentFacts StaticSpec HelperSpec HttpFacts CorsFacts RedirectFacts HelperFacts CorsMore HelperLog.
From Verif Require Import Getters NetCookie CookieSpec.
Local Open Scope Z_scope.

(** a handler that sets these cookies and goes on with k *)
Definition sets_cookies {V} (cs : list (gostr * gostr * list dyn)) (k : prog V) : prog V :=
  foldr (fun c => SetCookie_prog c.1.1 c.1.2 c.2) k cs.
Definition set_line (c : gostr * gostr * list dyn) : gostr := cookie_String (SetCookie c.1.1 c.1.2 c.2).

Section Engine.
Context {A V : Type}.
Variable re_ok : gostr -> bool.
Variable re_find : gostr -> gostr -> option (list gostr).
Variable sniff : gostr -> gostr.
Variable parse_form : bool -> request -> gostr * bool -> gmap gostr (list gostr) * bool * gostr.
Variable code : handler A -> prog V.

Definition cookie_ops (cs : list (gostr * gostr * list dyn)) : list (op V) := map (fun c => OHeaderAdd (L "Set-Cookie") (set_line c)) cs.
Lemma sets_seqp cs (k : prog V) : sets_cookies cs k = seqp (cookie_ops cs) k.
Proof. induction cs as [|c cs IH]; [done|]. change (sets_cookies (c :: cs) k) with (PDo (OHeaderAdd (L "Set-Cookie") (set_line c)) (fun _ => sets_cookies cs k)). by rewrite IH. Qed.
Lemma cookie_headers cs : forall h : header,
  h_values (fold_left hop (cookie_ops cs) h) (L "Set-Cookie") = h_values h (L "Set-Cookie") ++ map set_line cs /\
  same_but [L "Set-Cookie"] h (fold_left hop (cookie_ops cs) h).
Proof.
  induction cs as [|c cs IH]; intros h; cbn [cookie_ops map fold_left].
  - split; [by rewrite app_nil_r|]. by intros k _.
  - destruct (IH (hop h (OHeaderAdd (V:=V) (L "Set-Cookie") (set_line c)))) as [H1 H2]. split.
    + unfold cookie_ops in H1. rewrite H1, h_values_hop. assert (seqb (canon (L "Set-Cookie")) (canon (L "Set-Cookie")) = true) as -> by (by apply seqb_true).
      by rewrite <- app_assoc.
    + intros k Hk. unfold cookie_ops in H2. rewrite (H2 k Hk), h_values_hop. rewrite (seqb_other k _ _ Hk) by (vm_compute; reflexivity). done.
Qed.
Lemma cookies_behind ops r0 opts (e : engine A) id x r body en px c' cs n s k i l1 l2 :
  engine_of re_ok ops r0 opts e ->
  ServeHTTP re_find sniff parse_form code e id x (arrive r body) = (en, px, c') -> uses_ctx code e ->
  (forall hs, dispatched re_ok re_find e r hs -> exists g p, hs !! i = Some g /\ code g = sets_cookies cs p /\ answers_then p n s k) ->
  cn_log c' = l1 ++ EvStart i :: l2 -> ~ responded l1 -> 100 <= n <= 999 ->
  exists m l3 hd, l2 = m ++ l3 /\ starts m = [] /\ rw_sent (cn_rw c') = Some (n, hd) /\
    h_values hd (L "Set-Cookie") = h_values (headers_of l1) (L "Set-Cookie") ++ map set_line cs /\ same_but [L "Set-Cookie"] (headers_of l1) hd /\
    (bodiless n -> rw_body (cn_rw c') = []) /\ (~ bodiless n -> rw_body (cn_rw c') = s ++ data_of l3).
Proof.
  intros He H Hu Hd Hl Hn Hv.
  destruct (turn_log re_ok re_find sniff parse_form code _ _ _ _ _ _ _ _ _ _ _ (fun q => exists p, q = sets_cookies cs p /\ answers_then p n s k) i l1 l2 He H)
    as (hs & p & m & l3 & en' & (q & -> & Hp) & -> & Hdid & R1 & _).
  { intros hs Hdis. destruct (Hd _ Hdis) as (g & p & H1 & H2 & H3). eauto. }
  { exact Hl. }
  apply then_seqp in Hp as (os & -> & Hos & <-). rewrite sets_seqp, <- seqp_app in Hdid.
  destruct (deliver_log re_ok re_find sniff parse_form code _ _ _ _ _ _ _ _ _ _ _ hs (cookie_ops cs) n os k (l1 ++ [EvStart i]) m l3 en' He H (started _ _ _ _ Hl) Hu) as (m1 & m2 & -> & S1 & E1 & E2 & E3); try done.
  - rewrite Hl. by lists.
  - rewrite first_code_app. by rewrite (fresh_code _ Hn).
  - unfold cookie_ops. apply Forall_map. by apply Forall_true.
  - eapply Forall_impl; [exact Hos|]. intros o [(? & ? & ->)|(? & ->)]; done.
  - exists m1, (m2 ++ l3). eexists. split; [by lists|]. split; [done|]. split; [exact E1|].
    rewrite headers_of_snoc. cbn [hdr_step]. destruct (cookie_headers cs (headers_of l1)) as [C1 C2]. done.
Qed.
End Engine.
