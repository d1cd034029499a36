(** Pages made by the Render of the process. *)
From Verif Require Import Base GoStr Strconv Util Pattern Tree TreeSpec Header Router Ctx CtxFacts TraceSpec Engine EngineSpec
  ServeFacts ServeTop ServeDispatch Getters Content ContentFacts StaticSpec ServeProps ServeThms CorsFacts RedirectFacts HelperSpec HelperFacts CorsMore HelperLog HttpFacts Render RenderSpec.
Local Open Scope Z_scope.

Section Facts.
Context {A V D : Type}.
Variable re_ok : gostr -> bool.
Variable re_find : gostr -> gostr -> option (list gostr).
Variable sniff : gostr -> gostr.
Variable parse_form : bool -> request -> gostr * bool -> gmap gostr (list gostr) * bool * gostr.

(** ** Sequences *)
Lemma did_andthen (code : handler A -> prog V) hs p k : forall l en, did code hs (andthen p k) l en ->
  (exists l1 l2, l = l1 ++ l2 /\ did code hs p l1 EDone /\ did code hs k l2 en) \/
  (exists v, en = EThrow v /\ did code hs p l (EThrow v)).
Proof.
  induction p as [|v|o c IH|c IH|b IHb c IH]; intros l en H; cbn [andthen] in H.
  - left. exists [], l. split_and!; [done|constructor|done].
  - inversion H; subst. right. exists v. split; [done|constructor].
  - apply did_do in H as [(w & a & l' & Hw & -> & H)|(w & v & Hw & -> & ->)].
    + destruct (IH a l' en H) as [(l1 & l2 & -> & H1 & H2)|(v & -> & H1)].
      * left. exists (w ++ EvCall o (Norm a) :: l1), l2. split_and!; [by rewrite <- app_assoc|by constructor|done].
      * right. exists v. split; [done|by constructor].
    + right. exists v. split; [done|by constructor].
  - inversion H as [| | | |k' l1 l2 en' Ht Hd|k' l' v Ht| |]; subst.
    + destruct (IH _ _ Hd) as [(m1 & m2 & -> & H1 & H2)|(v & -> & H1)].
      * left. exists (EvNext :: l1 ++ m1), m2. split_and!; [by rewrite app_comm_cons, app_assoc|by constructor|done].
      * right. exists v. split; [done|by constructor].
    + right. exists v. split; [done|by constructor].
  - inversion H as [| | | | | |b' k' l1 l2 en' Hb Hd|b' k' l1 v l2 en' Hb Hd]; subst.
    + destruct (IH _ _ _ Hd) as [(m1 & m2 & -> & H1 & H2)|(v & -> & H1)].
      * left. exists (l1 ++ m1), m2. split_and!; [by rewrite app_assoc|by constructor|done].
      * right. exists v. split; [done|by constructor].
    + destruct (IH _ _ _ Hd) as [(m1 & m2 & -> & H1 & H2)|(v' & -> & H1)].
      * left. exists (l1 ++ m1), m2. split_and!; [by rewrite app_assoc|by eapply did_try_panic|done].
      * right. exists v'. split; [done|by eapply did_try_panic].
Qed.
Lemma andthen_seqp os (p k : prog V) : andthen (seqp os p) k = seqp os (andthen p k).
Proof. induction os as [|o os IH]; [done|]. unfold seqp in *. simpl. by rewrite IH. Qed.

(** ** The process *)
Lemma process_app code R0 (a b : list (act (A:=A) (V:=V) (D:=D))) R : installed R0 a R ->
  process re_find sniff parse_form code R0 (a ++ b) = process re_find sniff parse_form code R0 a ++ process re_find sniff parse_form code R b /\
  length (process re_find sniff parse_form code R0 a) = requests a.
Proof.
  assert (Hno : forall R0 (a : list (act (A:=A) (V:=V) (D:=D))), sets_none a -> process re_find sniff parse_form code R0 (a ++ b) = process re_find sniff parse_form code R0 a ++ process re_find sniff parse_form code R0 b /\
    length (process re_find sniff parse_form code R0 a) = requests a).
  { clear R0 a R. intros R0 a. induction a as [|[r|e id x c] a IH]; intros Ha; [done|destruct (Ha r); left|].
    cbn [app process requests length]. destruct IH as [-> ->]; [|done]. intros r Hr. apply (Ha r). by right. }
  intros [a' r b' Hb'|a' Ha']; [|by apply Hno]. revert R0. induction a' as [|[r'|e id x c] a' IH]; intros R0; cbn [app process requests length].
  - by apply Hno.
  - apply IH.
  - by destruct (IH R0) as [-> ->].
Qed.
Lemma served_installed code (a : list (act (A:=A) (V:=V) (D:=D))) e id x c b R : installed defaultRender a R ->
  run_process re_find sniff parse_form code (a ++ AServe e id x c :: b) !! requests a =
  Some (ServeHTTP re_find sniff parse_form (code R) e id x c).
Proof.
  intros H. unfold run_process. destruct (process_app code defaultRender a (AServe e id x c :: b) R H) as [-> <-].
  cbn [process]. by rewrite list_lookup_middle.
Qed.

(** ** What handlers show of it *)
Variable code : handler A -> prog V.
Lemma rendered_behind ops r0 opts (e : engine A) id x r body en px c' (p k : prog V) i l1 l2 :
  engine_of re_ok ops r0 opts e ->
  ServeHTTP re_find sniff parse_form code e id x (arrive r body) = (en, px, c') ->
  (forall hs, dispatched re_ok re_find e r hs -> exists g, hs !! i = Some g /\ code g = andthen p k) ->
  cn_log c' = l1 ++ EvStart i :: l2 ->
  exists hs m l3, l2 = m ++ l3 /\
    (did code hs p m EDone /\ (exists l4 l5 en', l3 = l4 ++ l5 /\ did code hs k l4 en') \/ exists v, did code hs p m (EThrow v)).
Proof.
  intros He H Hd Hl.
  destruct (turn_log re_ok re_find sniff parse_form code _ _ _ _ _ _ _ _ _ _ _ (fun q => q = andthen p k) i l1 l2 He H Hd Hl) as (hs & q & m & l3 & en' & -> & -> & Hdid & _).
  apply did_andthen in Hdid as [(m1 & m2 & -> & H1 & H2)|(v & -> & H1)].
  - exists hs, m1, (m2 ++ l3). split; [by rewrite app_assoc|]. left. split; [done|]. by exists m2, l3, en'.
  - exists hs, m, l3. split; [done|]. right. by exists v.
Qed.
Lemma page_behind ops r0 opts (e : engine A) id x r body en px c' n t s (k : prog V) i l1 l2 :
  engine_of re_ok ops r0 opts e ->
  ServeHTTP re_find sniff parse_form code e id x (arrive r body) = (en, px, c') -> uses_ctx code e ->
  (forall hs, dispatched re_ok re_find e r hs -> exists g, hs !! i = Some g /\
     code g = seqp [OHeaderSet (L "Content-Type") t; OWriteHeader n; OWrite s] k) ->
  cn_log c' = l1 ++ EvStart i :: l2 -> ~ responded l1 -> 100 <= n <= 999 ->
  exists m l3 hd, l2 = m ++ l3 /\ starts m = [] /\ rw_sent (cn_rw c') = Some (n, hd) /\ typed_over t (headers_of l1) hd /\
    (bodiless n -> rw_body (cn_rw c') = []) /\ (~ bodiless n -> rw_body (cn_rw c') = s ++ data_of l3).
Proof.
  intros He H Hu Hd Hl Hn Hv.
  destruct (turn_log re_ok re_find sniff parse_form code _ _ _ _ _ _ _ _ _ _ _ (fun q => q = seqp [OHeaderSet (L "Content-Type") t; OWriteHeader n; OWrite s] k) i l1 l2 He H Hd Hl)
    as (hs & q & m & l3 & en' & -> & -> & Hdid & R1 & _).
  destruct (deliver_log re_ok re_find sniff parse_form code _ _ _ _ _ _ _ _ _ _ _ hs [OHeaderSet (L "Content-Type") t] n [OWrite s] k (l1 ++ [EvStart i]) m l3 en' He H (started _ _ _ _ Hl) Hu) as (m1 & m2 & -> & S1 & E1 & E2 & E3); try done.
  - rewrite Hl. by rewrite <- app_assoc.
  - rewrite first_code_app. by rewrite (fresh_code _ Hn).
  - by repeat constructor.
  - by repeat constructor.
  - eexists m1, (m2 ++ l3), _. split_and!; [by rewrite app_assoc|done|exact E1| |done|].
    + cbn [fold_left]. rewrite headers_of_snoc. change (headers_of l1) with (headers_of l1). split.
      * rewrite h_values_hop. reflexivity.
      * intros key Hk. rewrite h_values_hop, (seqb_other key _ _ Hk) by (vm_compute; reflexivity). done.
    + intros Hb. rewrite (E3 Hb). cbn [map concat op_data]. by rewrite app_nil_r.
Qed.
End Facts.
