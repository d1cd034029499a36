(** The responses of handlers that leave the framing to the server. *)
From Coq Require Import ZArith NArith.
From Verif Require Import Base GoStr GoStrFacts UtilSpec Strconv Header RequestSpec RequestFacts Pattern Tree TreeSpec Router Ctx CtxFacts TraceSpec Engine EngineSpec
  ServeFacts ServeProps ServeTop NetServe NetRangeFacts NetFrame FrameSpec FrameClaim FrameRead FrameFacts FrameTop FrameSend FrameCut FrameConn.
Local Open Scope Z_scope.

Lemma canon_name k : field_name k -> field_name (canon k) /\ canon (canon k) = canon k.
Proof.
  intros [Hn Ht]. assert (is_token (canon k)) as Hc.
  { rewrite canon_token by done. revert Ht. unfold is_token. generalize true. clear. induction k as [|a k IH]; intros u H; [constructor|].
    inversion H as [|? ? Ha Hk]; subst. cbn [canon_case]. constructor; [|by apply IH].
    apply token_char. apply token_char in Ha. destruct u; revert Ha; destruct a as [[] [] [] [] [] [] [] []]; done. }
  split; [split; [|done]|].
  - rewrite canon_token by done. by destruct k.
  - apply canon_same; [done|done|]. unfold same_name. rewrite (canon_token k) by done. apply canon_case_lower.
Qed.
(** the headers of handlers that leave the names ks alone *)
Section Tidy.
Variable ks : list gostr.
Hypothesis ks_canon : Forall (fun n => canon n = n) ks.
Hypothesis ks_type : canon (L "Content-Type") ∉ ks.
Definition tidy (h : header) : Prop :=
  (forall k, is_Some (h !! k) -> field_name k /\ canon k = k) /\ forall n, n ∈ ks -> h_values h n = [].
Lemma tidy_insert h k vs : tidy h -> field_name k -> canon k ∉ ks -> tidy (<[canon k := vs]> h).
Proof using ks_canon.
  intros (H1 & H2) Hk Hc. split.
  - intros k' Hk'. destruct (decide (canon k = k')) as [<-|Hne]; [by apply canon_name|]. rewrite lookup_insert_ne in Hk' by done. by apply H1.
  - intros n Hn. rewrite Forall_forall in ks_canon. unfold h_values. rewrite (ks_canon n Hn).
    rewrite lookup_insert_ne by (intros E; apply Hc; by rewrite E). specialize (H2 n Hn). unfold h_values in H2. by rewrite (ks_canon n Hn) in H2.
Qed.
Lemma tidy_delete h k : tidy h -> tidy (h_del h k).
Proof using.
  intros (H1 & H2). unfold h_del. split.
  - intros k' [x Hk']. apply lookup_delete_Some in Hk' as [_ Hk']. apply H1. by eexists.
  - intros n Hn. specialize (H2 n Hn). unfold h_values in *.
    destruct (decide (canon k = canon n)) as [E|E]; [by rewrite E, lookup_delete|by rewrite lookup_delete_ne].
Qed.
Lemma tidy_type h vs : tidy h -> tidy (<[canon (L "Content-Type") := vs]> h).
Proof using ks_canon ks_type. intros H. apply tidy_insert; [done|by apply lit_name|done]. Qed.
End Tidy.
Lemma tidy_plain ks h : [L "Transfer-Encoding"; L "Trailer"] ⊆ ks -> tidy ks h -> plain_header h.
Proof. intros Hs (H1 & H2). split_and!; [done|apply H2, Hs; left|apply H2, Hs; right; left]. Qed.

Section Run.
Context {A V : Type}.
Variable sniff : gostr -> gostr.
Variable parse_form : bool -> request -> gostr * bool -> gmap gostr (list gostr) * bool * gostr.
Variable re_find : gostr -> gostr -> option (list gostr).
Variable code : handler A -> prog V.
Local Notation ServeHTTP := (ServeHTTP re_find sniff parse_form code).

Variable ks : list gostr.
Hypothesis ks_canon : Forall (fun n => canon n = n) ks.
Hypothesis ks_type : canon (L "Content-Type") ∉ ks.
Local Notation tidy := (tidy ks).
Definition fits (c : conn V) : Prop :=
  tidy (rw_hdr (cn_rw c)) /\
  match rw_sent (cn_rw c) with
  | None => rw_body (cn_rw c) = [] /\ pieces (cn_log c) = []
  | Some (n, h) => 200 <= n <= 999 /\ tidy h /\ (body_allowed n = true -> rw_body (cn_rw c) = concat (pieces (cn_log c))) /\
                   (body_allowed n = false -> rw_body (cn_rw c) = [])
  end.
Lemma pieces_app (l l' : list (event V)) : pieces (l ++ l') = pieces l ++ pieces l'.
Proof. apply flat_map_app. Qed.
Lemma fits_log c e : fits c -> pieces [e] = [] -> fits (log c e).
Proof. intros [H1 H2] He. split; [done|]. cbn [log cn_rw cn_log]. rewrite pieces_app, He, app_nil_r. exact H2. Qed.
Lemma fits_WriteHeader n c o c' : ~ (100 <= n <= 199) -> fits c -> raw_WriteHeader n c = (o, c') -> fits c'.
Proof.
  intros Hn Hf. pose proof (fits_log c (EvSend n) Hf eq_refl) as Hl. rewrite raw_WriteHeader_spec.
  destruct (rw_sent (cn_rw c)) eqn:Hs; [intros [= <- <-]; done|].
  destruct (valid_code n) eqn:Hv; intros [= <- <-]; [|done]. destruct Hl as [H1 H2]. cbn [log cn_rw cn_log] in H2. rewrite Hs in H2.
  destruct H2 as [H2 H3]. split; [done|]. cbn [set_rw cn_rw rw_sent rw_body cn_log log]. unfold valid_code in Hv. apply andb_true_iff in Hv as [V1%Z.leb_le V2%Z.leb_le].
  split_and!; [lia|lia|done|intros _; by rewrite H2, H3|done].
Qed.
Lemma fits_Write d c : fits c -> fits (raw_Write d c).
Proof.
  intros [H1 H2]. unfold raw_Write. cbn [log cn_rw]. destruct (rw_sent (cn_rw c)) as [[n h]|] eqn:Hs.
  - rewrite Hs. destruct H2 as (N & T & B1 & B2). destruct (body_allowed n) eqn:Hb; (split; [exact H1|]); cbn [set_rw cn_rw rw_sent rw_body cn_log log].
    + split_and!; [lia|lia|done| |congruence]. intros _. rewrite pieces_app, concat_app. cbn. by rewrite app_nil_r, (B1 eq_refl).
    + rewrite Hs. split_and!; [lia|lia|done|congruence|by auto].
  - destruct H2 as [B P]. cbn [rw_sent]. change (body_allowed 200) with true. cbv iota. split; [exact H1|]. cbn [set_rw cn_rw rw_sent rw_body cn_log log].
    split_and!; [lia|lia|done| |done]. intros _. rewrite pieces_app, concat_app, P, B. cbn. by rewrite app_nil_r.
Qed.
Lemma fits_set c h : fits c -> tidy h -> fits (set_hdr c h).
Proof. intros [H1 H2] Hh. split; [exact Hh|exact H2]. Qed.
Lemma fits_invariant : invariant (A:=A) sniff parse_form (leaves ks) (fun _ c => fits c) (fun _ c => fits c).
Proof.
  split; try done.
  - intros x c H _. by apply fits_log.
  - intros o y cy ro y' cy' Ho HJ Hc. apply call_eq in Hc as (c3 & Hd & ->). apply fits_log; [|done].
    revert Hd. destruct o; cbn [Ctx.do_op]; try (intros Hd; inversion Hd; subst; exact HJ).
    + unfold ctx_WriteHeader. destruct (x_written y); [intros Hd; inversion Hd; by subst|].
      destruct (raw_WriteHeader code0 cy) as [o1 c1] eqn:Hr. apply fits_WriteHeader in Hr; [|done|done].
      intros Hd; inversion Hd; subst; exact Hr.
    + unfold ctx_Write, ctx_WriteHeader. destruct (x_written y) eqn:Hw; cbn [negb].
      * intros Hd; inversion Hd; subst. by apply fits_Write.
      * match goal with |- context [raw_WriteHeader 200 ?c0] => destruct (raw_WriteHeader 200 c0) as [o1 c1] eqn:Hr end.
        apply fits_WriteHeader in Hr; [|lia|].
        2: { destruct (_ && _); [|done]. apply fits_set; [done|]. destruct HJ as [Ht _]. by apply tidy_type. }
        destruct o1; intros Hd; inversion Hd; subst; [|done]. by apply fits_Write.
    + intros Hd; inversion Hd; subst. apply fits_set; [done|]. destruct HJ as [Ht _], Ho as [T1 T2]. by apply tidy_insert.
    + intros Hd; inversion Hd; subst. apply fits_set; [done|]. destruct HJ as [Ht _], Ho as [T1 T2]. by apply tidy_insert.
    + intros Hd; inversion Hd; subst. apply fits_set; [done|]. destruct HJ as [Ht _]. by apply tidy_delete.
    + destruct (raw_WriteHeader code0 cy) as [o1 c1] eqn:Hr. apply fits_WriteHeader in Hr; [|done|done].
      intros Hd; inversion Hd; subst; exact Hr.
    + intros Hd; inversion Hd; subst. by apply fits_Write.
    + destruct (x_end y) as [[? [rt|]]|]; intros Hd; inversion Hd; subst; done.
    + destruct (x_params y); intros Hd; inversion Hd; subst; done.
    + destruct (x_env y) as [m|]; [destruct (m !! name)|]; intros Hd; inversion Hd; subst; done.
    + destruct (x_env y ≫= _); intros Hd; inversion Hd; subst; done.
    + destruct (x_env y) as [m|]; intros Hd; inversion Hd; subst; done.
    + destruct (x_parsed y); [intros Hd; inversion Hd; subst; done|].
      destruct (parse_form _ _ _) as [[f ok] rest]. destruct ok; intros Hd; inversion Hd; subst; exact HJ.
  - intros x c H. by apply fits_log.
  - intros x c i H. destruct (x_written x); by apply fits_log.
Qed.
Lemma fits_bare r body n : 200 <= n <= 999 -> fits (EngineSpec.bare r body n).
Proof.
  intros Hn. assert (tidy ∅) as Ht.
  { assert (forall k, h_values ∅ k = []) as Hv by (intros k; unfold h_values; by rewrite lookup_empty).
    split; [|done]. intros k [x Hk]. by rewrite lookup_empty in Hk. }
  split; [done|]. cbn. split_and!; [lia|lia|done|done|done].
Qed.
Lemma fits_serve e id x r body en px c' : (forall h, only (leaves ks) (code h)) -> ServeHTTP e id x (arrive r body) = (en, px, c') -> fits c'.
Proof.
  intros Hp H. assert (forall hs ps n, ran sniff parse_form code id hs ps n r body en c' -> fits c') as Hran.
  { intros hs ps n [x' Hx]. eapply (crun_inv _ _ _ _ _ _ fits_invariant) in Hx; [exact Hx|intros h _; apply Hp|done|done|].
    destruct (fits_bare r body 200 ltac:(lia)) as [Ht _]. split; done. }
  apply serve_split in H as [(n & Hr & _ & ->)|(i & _ & _ & H)].
  - apply fits_bare. destruct Hr; lia.
  - destruct (find_node _ _ _ _ _) as [[[n rt]|] ps]; [by eapply Hran|].
    destruct (o_nofound (en_options e)); [destruct H as [_ ->]; apply fits_bare; lia|by eapply Hran].
Qed.
Lemma fits_finish c n h body : fits c -> finish sniff (cn_rw c) = (n, h, body) ->
  200 <= n <= 999 /\ tidy h /\ (~ bodiless false n -> concat (pieces (cn_log c)) = body) /\ (bodiless false n -> body = []).
Proof using ks_canon ks_type.
  intros [H1 H2] Hf.
  destruct (finish_head sniff _ _ _ _ Hf) as (h0 & Hrh & -> & Hg).
  assert (200 <= n <= 999 /\ tidy h0 /\ (body_allowed n = true -> rw_body (cn_rw c) = concat (pieces (cn_log c))) /\ (body_allowed n = false -> rw_body (cn_rw c) = [])) as (N & T & B1 & B2).
  { unfold response_head in Hrh. destruct (rw_sent (cn_rw c)) as [[n1 h1]|] eqn:Hs; injection Hrh as <- <-; [done|].
    destruct H2 as [-> ->]. split_and!; (done || lia). }
  assert (tidy h) as Hp.
  { destruct Hg as [(-> & _)|[-> _]]; [|done]. by apply tidy_type. }
  assert (bodiless false n <-> body_allowed n = false) as Hb.
  { pose proof (bodiless_iff (fun _ _ => false) [] (mkReq [] 1 1 [] [] ∅ [] false) n) as Hi. change (is_head _) with false in Hi. rewrite Hi. split; [by intros [?|?]|auto]. }
  split_and!; [lia|lia|done| |by intros ?%Hb%B2].
  intros Hnb. symmetry. apply B1. apply not_false_iff_true. by rewrite <- Hb.
Qed.
Lemma fits_sound r c d u : [L "Transfer-Encoding"; L "Trailer"] ⊆ ks -> one_line d -> fits c ->
  (forall n h body, finish sniff (cn_rw c) = (n, h, body) -> declares (bool_decide (rq_method r = L "HEAD")) n h (length body)) ->
  sound sniff (mkExchange r d u (cn_rw c) (pieces (cn_log c))).
Proof using ks_canon ks_type.
  intros Hs Hd Hc Hl. split; [done|]. cbn [ex_response ex_pieces ex_request]. intros n h body Hf.
  destruct (fits_finish _ _ _ _ Hc Hf) as (N & T & B1 & B2). split_and!; try done; try lia; [by eapply tidy_plain|]. by apply Hl.
Qed.
End Run.

Definition server_list : list gostr := [L "Transfer-Encoding"; L "Trailer"; L "Content-Length"].
Lemma polite_canon : Forall (fun n => canon n = n) server_list.
Proof. repeat constructor; vm_compute; reflexivity. Qed.
Lemma polite_type : canon (L "Content-Type") ∉ server_list.
Proof. apply (bool_decide_eq_true _). vm_compute. reflexivity. Qed.
Lemma proper_canon : Forall (fun n => canon n = n) [L "Transfer-Encoding"; L "Trailer"].
Proof. repeat constructor; vm_compute; reflexivity. Qed.
Lemma proper_type : canon (L "Content-Type") ∉ [L "Transfer-Encoding"; L "Trailer"].
Proof. apply (bool_decide_eq_true _). vm_compute. reflexivity. Qed.
Lemma polite_names : [L "Transfer-Encoding"; L "Trailer"] ⊆ server_list.
Proof. intros x. unfold server_list. rewrite !elem_of_cons. tauto. Qed.
Lemma polite_length : L "Content-Length" ∈ server_list.
Proof. right. right. left. Qed.

Section Read.
Context {A V : Type}.
Variable sniff : gostr -> gostr.
Variable parse_form : bool -> request -> gostr * bool -> gmap gostr (list gostr) * bool * gostr.
Variable re_find : gostr -> gostr -> option (list gostr).
Variable code : handler A -> prog V.
Local Notation ServeHTTP := (ServeHTTP re_find sniff parse_form code).
(** ** What clients read *)
Variable has_token : gostr -> gostr -> bool.
Variable status_text : Z -> option gostr.
Variable keep : bool.
Variable size : nat.
Hypothesis text_line : forall n t, status_text n = Some t -> bare t.
Hypothesis sniff_line : forall d, one_line (sniff d).
Hypothesis sniff_window : forall a b, (size <= length a)%nat -> sniff (a ++ b) = sniff a.
Lemma served_sound ex : (forall h, only polite (code h)) -> served re_find sniff parse_form code ex -> sound sniff ex.
Proof.
  intros Hp (e & id & x & r & body & px & c' & d & u & Hs & Hd & ->). 
  assert (fits server_list c') as Hc by (eapply fits_serve; [apply polite_canon|apply polite_type|done|done]).
  apply (fits_sound sniff server_list polite_canon polite_type); [apply polite_names|done|done|].
  intros n h b Hf. left. destruct (fits_finish sniff server_list polite_canon polite_type _ _ _ _ Hc Hf) as (_ & [_ T] & _). apply T, polite_length.
Qed.
Theorem served_read es : (forall h, only polite (code h)) -> Forall (served re_find sniff parse_form code) es ->
  let got := answered has_token status_text sniff keep size es in
  exists ms, reads_all (map asks_head got) (connection has_token status_text sniff keep size es) ms /\ Forall2 (is_reply sniff) got ms /\
    forall ms', reads_all (map asks_head got) (connection has_token status_text sniff keep size es) ms' -> ms' = ms.
Proof.
  intros Hp Hes. destruct (connection_read has_token status_text sniff keep size text_line sniff_line sniff_window es) as (ms & H1 & H2).
  { eapply Forall_impl; [exact Hes|]. intros ex. by apply served_sound. }
  exists ms. split_and!; [done|done|]. intros ms' H'. by eapply reads_all_one.
Qed.
Theorem panic_unread e id x r body v px c' d u : (forall h, only polite (code h)) -> one_line d ->
  ServeHTTP e id x (arrive r body) = (EThrow v, px, c') -> rq_method r <> L "HEAD" ->
  (forall n h, rw_sent (cn_rw c') = Some (n, h) -> ~ bodiless false n) ->
  forall m rest, ~ reads false (torn has_token status_text d sniff keep u size r (cn_rw c') (pieces (cn_log c'))) m rest.
Proof.
  intros Hp Hd Hs Hm Hb. pose proof (fits_serve sniff parse_form re_find code server_list polite_canon polite_type _ _ _ _ _ _ _ _ Hp Hs) as [Hf1 Hf2].
  assert (at_least_11 r = true) as H11.
  { pose proof Hs as H. apply serve_split in H as [(n & _ & E & _)|(i & Hu & _)]; [done|].
    assert (negb (proto_11 r) || seqb (rq_uri r) (L "*") || seqb (rq_method r) (L "CONNECT") = false) as E.
    { apply not_true_iff_false. by rewrite unacceptable_b. }
    apply orb_false_iff in E as [E _]. apply orb_false_iff in E as [E _]. apply negb_false_iff in E. exact E. }
  destruct (response_head (cn_rw c')) as [n h] eqn:Hr.
  assert (200 <= n <= 999 /\ tidy server_list h /\ ~ bodiless false n) as (N & T & B).
  { unfold response_head in Hr. destruct (rw_sent (cn_rw c')) as [[n1 h1]|] eqn:E; injection Hr as <- <-.
    - destruct Hf2 as (? & ? & _). split_and!; [lia|lia|done|by eapply Hb].
    - split_and!; [lia|lia|done|]. unfold bodiless. intros [?|?]; [done|lia]. }
  apply (torn_unread has_token status_text d sniff keep u size r Hd text_line sniff_line (cn_rw c') _ n h); try done.
  - by eapply tidy_plain; [apply polite_names|].
  - unfold is_head. by apply seqb_false.
  - left. split; [apply T, polite_length|done].
Qed.
(** handlers that announce the length of the body *)
Lemma proper_sound ex : (forall h, only proper (code h)) -> served re_find sniff parse_form code ex ->
  (forall n h b, finish sniff (ex_response ex) = (n, h, b) -> declares (asks_head ex) n h (length b)) -> sound sniff ex.
Proof using.
  intros Hp (e & id & x & r & body & px & c' & d & u & Hs & Hd & ->) Hl.
  apply (fits_sound sniff _ proper_canon proper_type); [done|done| |exact Hl].
  eapply fits_serve; [apply proper_canon|apply proper_type|done|done].
Qed.
End Read.
